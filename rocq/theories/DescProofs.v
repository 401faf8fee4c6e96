(** Proofs about type descriptors. *)
From Coq Require Import String ZArith List Bool Lia.
From Verif Require Import DescModel DescSpec.
Import ListNotations.
Local Open Scope Z_scope.

Lemma cstring_cons l s c : cstring l (c :: s) -> exists l', l = c :: l' /\ cstring l' s /\ c <> 0.
Proof.
  intros (rest & -> & H). exists (s ++ 0 :: rest). split; [reflexivity|]. split.
  - exists rest. split; [reflexivity|]. intros H'. apply H. now right.
  - intros ->. apply H. now left.
Qed.
Lemma cstring_nil l : cstring l [] -> exists l', l = 0 :: l'.
Proof. intros (rest & -> & _). now exists rest. Qed.

Lemma before_cons c s t : before (c :: s) (c :: t) <-> before s t.
Proof.
  split; intros (p & a & b & u & v & H1 & H2 & H3).
  - destruct p as [|d p]; cbn in H1, H2.
    + injection H1 as H1 _. injection H2 as H2 _. lia.
    + injection H1 as -> H1. injection H2 as H2. now exists p, a, b, u, v.
  - exists (c :: p), a, b, u, v. cbn. now rewrite H1, H2.
Qed.
Lemma before_irrefl s : ~ before s s.
Proof.
  intros (p & a & b & u & v & H1 & H2 & H3). rewrite H1 in H2. apply app_inv_head in H2. injection H2 as H2 _. lia.
Qed.
Lemma before_head a b s t : a < b -> before (a :: s) (b :: t).
Proof. intros H. exists [], a, b, (s ++ [0]), (t ++ [0]). now cbn. Qed.
Lemma before_nil_cons b t : 0 < b -> before [] (b :: t).
Proof. intros H. exists [], 0, b, [], (t ++ [0]). now cbn. Qed.
Lemma before_cons_nil a s : a < 0 -> before (a :: s) [].
Proof. intros H. exists [], a, 0, (s ++ [0]), []. now cbn. Qed.
Lemma before_cons_inv a b s t : before (a :: s) (b :: t) -> a < b \/ (a = b /\ before s t).
Proof.
  intros (p & x & y & u & v & H1 & H2 & H3). destruct p as [|d p]; cbn in H1, H2.
  - injection H1 as -> _. injection H2 as -> _. now left.
  - injection H1 as -> H1. injection H2 as -> H2. right. split; [reflexivity|]. now exists p, x, y, u, v.
Qed.
Lemma before_nil_inv b t : before [] (b :: t) -> 0 < b.
Proof.
  intros (p & x & y & u & v & H1 & H2 & H3). destruct p as [|d p]; cbn in H1, H2.
  - injection H1 as -> _. injection H2 as -> _. exact H3.
  - injection H1 as _ H1. destruct p; discriminate.
Qed.
Lemma before_nil_r_inv a s : before (a :: s) [] -> a < 0.
Proof.
  intros (p & x & y & u & v & H1 & H2 & H3). destruct p as [|d p]; cbn in H1, H2.
  - injection H1 as -> _. injection H2 as -> _. exact H3.
  - injection H2 as _ H2. destruct p; discriminate.
Qed.

Lemma before_trans s t r : ~ In 0 s -> ~ In 0 t -> ~ In 0 r -> before s t -> before t r -> before s r.
Proof.
  revert t r. induction s as [|a s IH]; intros [|b t] [|c r] Hs Ht Hr H1 H2; cbn in Hs, Ht, Hr;
    try (now apply before_irrefl in H1); try (now apply before_irrefl in H2).
  - apply before_nil_inv in H1. apply before_nil_r_inv in H2. lia.
  - apply before_nil_inv in H1. apply before_cons_inv in H2. apply before_nil_cons. lia.
  - apply before_nil_r_inv in H1. apply before_nil_inv in H2. apply before_head. lia.
  - apply before_cons_inv in H1. apply before_nil_r_inv in H2. apply before_cons_nil. lia.
  - apply before_cons_inv in H1. apply before_cons_inv in H2.
    destruct H1 as [H1|[-> H1]], H2 as [H2|[-> H2]]; try (apply before_head; lia).
    apply before_cons. apply (IH t); tauto.
Qed.
Lemma before_total s t : ~ In 0 s -> ~ In 0 t -> before s t \/ s = t \/ before t s.
Proof.
  revert t. induction s as [|a s IH]; intros [|b t] Hs Ht; cbn in Hs, Ht.
  - now right; left.
  - assert (0 < b \/ b < 0) as [H|H] by lia; [left; now apply before_nil_cons|right; right; now apply before_cons_nil].
  - assert (0 < a \/ a < 0) as [H|H] by lia; [right; right; now apply before_nil_cons|left; now apply before_cons_nil].
  - destruct (Z.lt_trichotomy a b) as [H|[->|H]].
    + left. now apply before_head.
    + destruct (IH t) as [H|[->|H]]; [tauto|tauto| |now right; left|].
      * left. now apply before_cons.
      * right; right. now apply before_cons.
    + right; right. now apply before_head.
Qed.
Lemma before_order : (forall s, ~ before s s) /\
  (forall s t r, ~ In 0 s -> ~ In 0 t -> ~ In 0 r -> before s t -> before t r -> before s r) /\
  (forall s t, ~ In 0 s -> ~ In 0 t -> before s t \/ s = t \/ before t s).
Proof. split; [exact before_irrefl|]. split; [exact before_trans|exact before_total]. Qed.

Lemma prefix_before s t c : 0 < c -> before s (s ++ c :: t).
Proof.
  intros H. exists s, 0, c, [], (t ++ [0]). split; [reflexivity|]. split; [now rewrite <- app_assoc|exact H].
Qed.

Lemma strcmp_spec l r s t : cstring l s -> cstring r t ->
  exists c, strcmp l r = Some c /\
    match c with Lt => before s t | Eq => s = t | Gt => before t s end.
Proof.
  revert l r t. induction s as [|a s IH]; intros l r t Hl Hr.
  - apply cstring_nil in Hl as (l' & ->). destruct t as [|b t].
    + apply cstring_nil in Hr as (r' & ->). exists Eq. now cbn.
    + apply cstring_cons in Hr as (r' & -> & _ & Hb). exists (0 ?= b). cbn -[Z.compare Z.eqb].
      destruct (Z.eqb_spec 0 b); [lia|]. split; [reflexivity|].
      destruct (Z.compare_spec 0 b); [lia|now apply before_nil_cons|now apply before_cons_nil].
  - apply cstring_cons in Hl as (l' & -> & Hl & Ha). destruct t as [|b t].
    + apply cstring_nil in Hr as (r' & ->). exists (a ?= 0). cbn -[Z.compare Z.eqb].
      destruct (Z.eqb_spec a 0); [lia|]. split; [reflexivity|].
      destruct (Z.compare_spec a 0); [lia|now apply before_cons_nil|now apply before_nil_cons].
    + apply cstring_cons in Hr as (r' & -> & Hr & Hb). cbn -[Z.compare Z.eqb].
      destruct (Z.eqb_spec a b) as [->|Hab]; cbn -[Z.compare Z.eqb].
      * destruct (Z.eqb_spec b 0); [lia|]. cbn -[Z.compare Z.eqb].
        destruct (IH l' r' t Hl Hr) as (c & Hc & Hm). exists c. split; [exact Hc|].
        destruct c; [now subst|now apply before_cons|now apply before_cons].
      * exists (a ?= b). split; [reflexivity|]. destruct (Z.compare_spec a b); [lia|now apply before_head|now apply before_head].
Qed.
Lemma strcmp17_spec l r s t : cstring l s -> cstring r t -> exists b, strcmp17 l r = Some b /\ (b = true <-> s = t).
Proof.
  revert l r t. induction s as [|a s IH]; intros l r t Hl Hr.
  - apply cstring_nil in Hl as (l' & ->). destruct t as [|b t].
    + apply cstring_nil in Hr as (r' & ->). exists true. now cbn.
    + apply cstring_cons in Hr as (r' & -> & _ & Hb). exists false. cbn -[Z.eqb].
      destruct (Z.eqb_spec 0 b); [lia|]. now cbn.
  - apply cstring_cons in Hl as (l' & -> & Hl & Ha). destruct t as [|b t].
    + apply cstring_nil in Hr as (r' & ->). exists false. cbn -[Z.eqb]. destruct (Z.eqb_spec a 0); [lia|]. now cbn.
    + apply cstring_cons in Hr as (r' & -> & Hr & Hb). cbn -[Z.eqb].
      destruct (Z.eqb_spec a b) as [->|Hab]; cbn -[Z.eqb].
      * destruct (Z.eqb_spec b 0); [lia|]. cbn -[Z.eqb].
        destruct (IH l' r' t Hl Hr) as (c & Hc & Hm). exists c. split; [exact Hc|]. rewrite Hm. split; congruence.
      * exists false. split; [reflexivity|]. split; congruence.
Qed.

Lemma desc_cmp_spec a b s t : cstring (d_mem a) s -> cstring (d_mem b) t ->
  exists c, desc_cmp a b = Some c /\ (c = Lt <-> before s t) /\ (c = Eq <-> s = t) /\ (c = Gt <-> before t s).
Proof.
  intros Ha Hb. destruct (strcmp_spec _ _ _ _ Ha Hb) as (c & Hc & Hm). exists c. split; [exact Hc|].
  assert (Hs : ~ In 0 s) by (now destruct Ha as (? & _ & ?)). assert (Ht : ~ In 0 t) by (now destruct Hb as (? & _ & ?)).
  assert (Hno : before s t -> before t s -> False).
  { intros H1 H2. apply (before_irrefl s). now apply (before_trans s t s). }
  assert (Hne : before s t -> s = t -> False) by (intros H ->; now apply (before_irrefl t)).
  assert (Hne' : before t s -> s = t -> False) by (intros H ->; now apply (before_irrefl t)).
  destruct c; split; [|split| |split| |split]; split; intros H; try discriminate; try reflexivity; try assumption; exfalso; eauto.
Qed.

(** equal addresses name the same memory *)
Definition same_memory (a b : descriptor) : Prop := d_addr a = d_addr b -> d_mem a = d_mem b.

Lemma desc_order :
  (forall a s, cstring (d_mem a) s -> desc_cmp a a = Some Eq) /\
  (forall a b s t, cstring (d_mem a) s -> cstring (d_mem b) t -> exists c, desc_cmp a b = Some c /\ desc_cmp b a = Some (CompOpp c)) /\
  (forall a b c s t r x, cstring (d_mem a) s -> cstring (d_mem b) t -> cstring (d_mem c) r ->
    desc_cmp a b = Some x -> desc_cmp b c = Some x -> desc_cmp a c = Some x).
Proof.
  split; [|split].
  - intros a s Ha. destruct (desc_cmp_spec a a s s Ha Ha) as (c & -> & _ & He & _). f_equal. now apply He.
  - intros a b s t Ha Hb. destruct (desc_cmp_spec a b s t Ha Hb) as (c & -> & Hl & He & Hg).
    destruct (desc_cmp_spec b a t s Hb Ha) as (c' & -> & Hl' & He' & Hg'). exists c. split; [reflexivity|]. f_equal.
    destruct c; cbn.
    + apply He'. symmetry. now apply He.
    + apply Hg'. now apply Hl.
    + apply Hl'. now apply Hg.
  - intros a b c s t r x Ha Hb Hc H1 H2.
    destruct (desc_cmp_spec a b s t Ha Hb) as (c1 & E1 & Hl1 & He1 & Hg1). destruct (desc_cmp_spec b c t r Hb Hc) as (c2 & E2 & Hl2 & He2 & Hg2).
    destruct (desc_cmp_spec a c s r Ha Hc) as (c3 & -> & Hl3 & He3 & Hg3). f_equal.
    rewrite H1 in E1. injection E1 as <-. rewrite H2 in E2. injection E2 as <-.
    destruct Ha as (? & _ & Ns), Hb as (? & _ & Nt), Hc as (? & _ & Nr). destruct x.
    + apply He3. transitivity t; [now apply He1|now apply He2].
    + apply Hl3. apply (before_trans s t r Ns Nt Nr); [now apply Hl1|now apply Hl2].
    + apply Hg3. apply (before_trans r t s Nr Nt Ns); [now apply Hg2|now apply Hg1].
Qed.
Lemma cstring_unique l s t : cstring l s -> cstring l t -> s = t.
Proof.
  intros H1 H2. destruct (strcmp_spec l l s t H1 H2) as (c & Hc & Hm). 
  assert (strcmp l l = Some Eq) as He.
  { clear Hm. revert s t H1 H2 Hc. induction l as [|a l IH]; intros s t H1 H2 Hc; [now destruct H1 as ([|] & ? & _), s|].
    cbn -[Z.eqb Z.compare] in *. rewrite Z.eqb_refl in *. destruct (a =? 0) eqn:Ha; cbn -[Z.compare] in *; [now rewrite Z.compare_refl|].
    destruct s as [|x s]; [apply cstring_nil in H1 as (? & [= ->]); discriminate|].
    destruct t as [|y t]; [apply cstring_nil in H2 as (? & [= ->]); discriminate|].
    apply cstring_cons in H1 as (? & [= _ <-] & H1 & _). apply cstring_cons in H2 as (? & [= _ <-] & H2 & _). now apply (IH s t). }
  rewrite He in Hc. injection Hc as <-. exact Hm.
Qed.

Lemma desc_eq_spec a b s t : cstring (d_mem a) s -> cstring (d_mem b) t -> same_memory a b ->
  exists e, desc_eq a b = Some e /\ desc_eq_const a b = Some e /\ desc_eq17 a b = Some e /\ (e = true <-> s = t).
Proof.
  intros Ha Hb Hs. destruct (strcmp_spec _ _ _ _ Ha Hb) as (c & Hc & Hm).
  destruct (strcmp17_spec _ _ _ _ Ha Hb) as (e & He & Hst). exists e. unfold desc_eq, desc_eq_const, desc_eq17. rewrite Hc, He.
  destruct (desc_cmp_spec a b s t Ha Hb) as (c' & Hc' & HL & HE & HG). unfold desc_cmp in Hc'. rewrite Hc in Hc'. injection Hc' as <-.
  assert (match c with Eq => Some true | _ => Some false end = Some e) as Hce.
  { destruct c; f_equal; symmetry.
    - now apply Hst.
    - destruct e; [|reflexivity]. enough (Lt = Eq) by discriminate. apply HE. now apply Hst.
    - destruct e; [|reflexivity]. enough (Gt = Eq) by discriminate. apply HE. now apply Hst. }
  rewrite Hce. split; [|now repeat split; apply Hst].
  destruct (Nat.eqb_spec (d_addr a) (d_addr b)) as [Hab|_]; [|reflexivity].
  f_equal. symmetry. apply Hst. rewrite (Hs Hab) in Ha. now apply (cstring_unique (d_mem b)).
Qed.

Lemma eq_iff_cmp a b s t : cstring (d_mem a) s -> cstring (d_mem b) t -> same_memory a b ->
  (desc_eq a b = Some true <-> desc_cmp a b = Some Eq).
Proof.
  intros Ha Hb Hs. destruct (desc_eq_spec a b s t Ha Hb Hs) as (e & -> & _ & _ & He).
  destruct (desc_cmp_spec a b s t Ha Hb) as (c & -> & _ & Hc & _).
  split; intros [= H]; f_equal; [apply Hc, He, H|apply He, Hc, H].
Qed.

Lemma string_view_spec l s : cstring l s -> string_view l = Some s.
Proof.
  revert l. induction s as [|c s IH]; intros l H.
  - apply cstring_nil in H as (l' & ->). reflexivity.
  - apply cstring_cons in H as (l' & -> & H & Hc). cbn -[Z.eqb]. rewrite (IH _ H). destruct (Z.eqb_spec c 0); [lia|reflexivity].
Qed.
Lemma desc_hash_spec h a b s t : cstring (d_mem a) s -> cstring (d_mem b) t -> same_memory a b ->
  desc_hash h a = Some (h s) /\ (desc_eq a b = Some true -> desc_hash h a = desc_hash h b).
Proof.
  intros Ha Hb Hs. unfold desc_hash. rewrite (string_view_spec _ _ Ha), (string_view_spec _ _ Hb). split; [reflexivity|].
  destruct (desc_eq_spec a b s t Ha Hb Hs) as (e & -> & _ & _ & He). intros [= ->]. now rewrite (proj1 He eq_refl).
Qed.

(** ** names *)
Lemma code_nonzero s : ~ In 0 (cs s) <-> forall c, In c (list_ascii_of_string s) -> code c <> 0.
Proof.
  unfold cs. split.
  - intros H c Hc Hz. apply H. apply in_map_iff. now exists c.
  - intros H Hi. apply in_map_iff in Hi as (c & Hz & Hc). now apply (H c).
Qed.

Lemma n_gcc_name nm : n_gcc (pretty_gcc nm) = nm ++ lit "]".
Proof. reflexivity. Qed.
Lemma n_clang_name nm : n_clang (pretty_clang nm) = nm ++ lit "]".
Proof. reflexivity. Qed.

Lemma lit_name nm : ~ In 0 nm -> cstring (nm ++ lit "]") (nm ++ cs "]").
Proof.
  intros H. exists []. unfold lit. rewrite <- app_assoc. split; [reflexivity|].
  intros Hi. apply in_app_iff in Hi as [Hi|Hi]; [now apply H|]. cbn in Hi. now destruct Hi as [Hi|[]].
Qed.

Lemma remove_cv_idem t : remove_cv (remove_cv t) = remove_cv t.
Proof. induction t; cbn; auto. Qed.

(** ** decay as a relation *)
Lemma refers_iff t o : refers t o <-> o = remove_reference t.
Proof. split; [destruct 1 as [u | u | t' N1 N2]; cbn; auto; destruct t'; auto; cbn; exfalso; [eapply N1 | eapply N2]; reflexivity |]. intros ->. destruct t; cbn; constructor; discriminate. Qed.
Lemma unqualified_iff t u : unqualified t u <-> u = remove_cv t.
Proof.
  split.
  - induction 1 as [| | t' N1 N2]; cbn; auto. destruct t'; cbn; auto; exfalso; [eapply N1 | eapply N2]; reflexivity.
  - intros ->. induction t; cbn; try (constructor; discriminate); constructor; assumption.
Qed.
Lemma decays_iff t d : decays t d <-> d = decay t.
Proof.
  split.
  - destruct 1 as [t u n H | t n H | t o d H A F U]; apply refers_iff in H; unfold decay; rewrite <- H; auto.
    apply unqualified_iff in U. destruct o; auto; exfalso; [eapply A | eapply F]; reflexivity.
  - intros ->. unfold decay. remember (remove_reference t) as o eqn:H. apply refers_iff in H.
    destruct o; try (eapply decays_object; [exact H | discriminate | discriminate | apply unqualified_iff; reflexivity]).
    + eapply decays_array, H.
    + apply decays_function, H.
Qed.

(** ** descriptors of types *)
Definition suffix (cc : compiler) : list Z := match cc with Msvc => cs ">(void)" | _ => cs "]" end.
Lemma starts_with_other p l : ~ In 0 p -> In 0 l -> (forall r, l <> p ++ r) -> starts_with (p ++ [0]) l = Some false.
Proof.
  revert l. induction p as [|a p IH]; cbn -[Z.eqb]; intros [|b l] Hz Hl Hn; try (now destruct Hl).
  - now destruct (Hn (b :: l)).
  - destruct (Z.eqb_spec a b) as [->|Hab]; cbn -[Z.eqb].
    + destruct (Z.eqb_spec b 0); [exfalso; apply Hz; now left|]. cbn. apply IH; [tauto| |].
      * destruct Hl as [Hl|Hl]; [congruence|exact Hl].
      * intros r ->. now apply (Hn r).
    + f_equal. apply Z.eqb_neq. intros ->. apply Hz. now left.
Qed.
Lemma no_prefix (p nm : list Z) h t r : ~ In h p -> nm ++ h :: t = p ++ r -> exists r', nm = p ++ r'.
Proof.
  revert nm. induction p as [|a p IH]; intros nm Hh H; [now exists nm|]. cbn in Hh. destruct nm as [|b nm]; cbn in H.
  - injection H as H _. exfalso. apply Hh. now left.
  - injection H as -> H. destruct (IH nm) as (r' & ->); [tauto|exact H|]. now exists r'.
Qed.
Lemma name_of_spec cc nm c : spells cc nm c -> ~ In 0 nm -> name_of cc nm = Some (c ++ suffix cc ++ [0]) /\ ~ In 0 c.
Proof.
  destruct 1 as [nm|nm|nm|nm|nm N1 N2]; intros Hz; cbn [name_of suffix].
  - split; [reflexivity|exact Hz].
  - split; [reflexivity|exact Hz].
  - split; [reflexivity|]. intros Hi. apply Hz. apply in_or_app. now right.
  - split; [reflexivity|]. intros Hi. apply Hz. apply in_or_app. now right.
  - split; [|exact Hz]. change (cs ">(void)" ++ [0]) with (lit ">(void)"). unfold n_msvc.
    change (skipn (sizeof_lit "const char *__cdecl aa::noexport::n<" - 1) (funcsig_msvc nm)) with (nm ++ lit ">(void)").
    assert (In 0 (nm ++ lit ">(void)")) as Hl by (apply in_or_app; right; cbn; tauto).
    change (lit "class") with (cs "class" ++ [0]). change (lit "struct") with (cs "struct" ++ [0]).
    rewrite (starts_with_other (cs "class")); [|cbn; intuition discriminate|exact Hl|].
    + rewrite (starts_with_other (cs "struct")); [reflexivity|cbn; intuition discriminate|exact Hl|].
      intros r Hr. apply no_prefix in Hr as (r' & Hr); [now apply (N2 r')|cbn; intuition discriminate].
    + intros r Hr. apply no_prefix in Hr as (r' & Hr); [now apply (N1 r')|cbn; intuition discriminate].
Qed.
Lemma core_cstring cc c : ~ In 0 c -> cstring (c ++ suffix cc ++ [0]) (c ++ suffix cc).
Proof.
  intros H. exists []. rewrite <- app_assoc. split; [reflexivity|].
  intros Hi. apply in_app_iff in Hi as [Hi|Hi]; [now apply H|]. destruct cc; cbn in Hi; intuition discriminate.
Qed.

(** two descriptors are equal iff the cores of the names of the decayed types are *)
Lemma descriptor_cores cc u v x y c c' : ~ In 0 (u_name u (decay x)) -> ~ In 0 (u_name v (decay y)) ->
  spells cc (u_name u (decay x)) c -> spells cc (u_name v (decay y)) c' -> (u_addr u (decay x) = u_addr v (decay y) -> c = c') ->
  exists e, both desc_eq (descriptor_v cc u x) (descriptor_v cc v y) = Some e /\ (e = true <-> c = c').
Proof.
  intros Z1 Z2 S1 S2 A. unfold descriptor_v. destruct (name_of_spec _ _ _ S1 Z1) as [-> N1]. destruct (name_of_spec _ _ _ S2 Z2) as [-> N2].
  cbn [option_map both].
  destruct (desc_eq_spec (Desc (u_addr u (decay x)) (c ++ suffix cc ++ [0])) (Desc (u_addr v (decay y)) (c' ++ suffix cc ++ [0])) (c ++ suffix cc) (c' ++ suffix cc))
    as (e & He & _ & _ & H).
  - now apply core_cstring.
  - now apply core_cstring.
  - intros Had. cbn in *. now rewrite (A Had).
  - exists e. split; [exact He|]. rewrite H. split; [apply app_inv_tail|now intros ->].
Qed.
Lemma decays_decay t : decays t (decay t).
Proof. now apply decays_iff. Qed.
Lemma descriptor_identifies cc u v x y :
  well_spelled cc u -> well_spelled cc v -> one_string cc u v -> agree cc u v -> distinct cc u v ->
  exists e, both desc_eq (descriptor_v cc u x) (descriptor_v cc v y) = Some e /\ (e = true <-> exists d, decays x d /\ decays y d).
Proof.
  intros W1 W2 A G D. destruct (W1 (decay x)) as (Z1 & c & S1), (W2 (decay y)) as (Z2 & c' & S2).
  destruct (descriptor_cores cc u v x y c c' Z1 Z2 S1 S2) as (e & He & H); [intros Had; now apply (A (decay x) (decay y))|].
  exists e. split; [exact He|]. rewrite H. split.
  - intros <-. exists (decay x). split; [apply decays_decay|]. rewrite (D x y (decay x) (decay y) c); auto using decays_decay.
  - intros (d & D1 & D2). apply decays_iff in D1, D2. subst d. rewrite <- D2 in S2. apply (G x (decay x) c (decays_decay x) S1 c' S2).
Qed.
Lemma descriptor_ambiguous cc u v x y d e :
  well_spelled cc u -> well_spelled cc v -> one_string cc u v -> decays x d -> decays y e -> d <> e -> u_name u d = u_name v e ->
  both desc_eq (descriptor_v cc u x) (descriptor_v cc v y) = Some true.
Proof.
  intros W1 W2 A D1 D2 _ N. apply decays_iff in D1, D2. subst d e. destruct (W1 (decay x)) as (Z1 & c & S1).
  assert (S2 : spells cc (u_name v (decay y)) c) by now rewrite <- N. assert (Z2 : ~ In 0 (u_name v (decay y))) by now rewrite <- N.
  destruct (descriptor_cores cc u v x y c c Z1 Z2 S1 S2) as (e & -> & H); [reflexivity|]. f_equal. now apply H.
Qed.
(** a type spelled in two ways that differ in more than the class key in front has two descriptors *)
Lemma descriptor_two_spellings cc u v x y d c c' :
  well_spelled cc u -> well_spelled cc v -> one_string cc u v -> decays x d -> decays y d ->
  spells cc (u_name u d) c -> spells cc (u_name v d) c' -> c <> c' ->
  both desc_eq (descriptor_v cc u x) (descriptor_v cc v y) = Some false.
Proof.
  intros W1 W2 A D1 D2 S1 S2 N. apply decays_iff in D1, D2. subst d. rewrite D2 in S2. destruct (W1 (decay x)) as (Z1 & _), (W2 (decay y)) as (Z2 & _).
  destruct (descriptor_cores cc u v x y c c' Z1 Z2 S1 S2) as (e & -> & H); [intros Had; now apply (A (decay x) (decay y))|].
  f_equal. destruct e; [|reflexivity]. destruct N. now apply H.
Qed.
(** order: smaller, equal, greater as the cores followed by the common suffix *)
Lemma descriptor_order cc u v x y : well_spelled cc u -> well_spelled cc v -> one_string cc u v ->
  exists o, both desc_cmp (descriptor_v cc u x) (descriptor_v cc v y) = Some o /\
    both desc_cmp (descriptor_v cc v y) (descriptor_v cc u x) = Some (CompOpp o) /\
    (o = Eq <-> both desc_eq (descriptor_v cc u x) (descriptor_v cc v y) = Some true).
Proof.
  intros W1 W2 A. destruct (W1 (decay x)) as (Z1 & c & S1), (W2 (decay y)) as (Z2 & c' & S2).
  destruct (descriptor_cores cc u v x y c c' Z1 Z2 S1 S2) as (e & He & H); [intros Had; now apply (A (decay x) (decay y))|]. rewrite He.
  unfold descriptor_v. destruct (name_of_spec _ _ _ S1 Z1) as [-> N1]. destruct (name_of_spec _ _ _ S2 Z2) as [-> N2]. cbn [option_map both].
  pose proof (core_cstring cc c N1) as K1. pose proof (core_cstring cc c' N2) as K2.
  destruct (desc_cmp_spec (Desc (u_addr u (decay x)) (c ++ suffix cc ++ [0])) (Desc (u_addr v (decay y)) (c' ++ suffix cc ++ [0])) _ _ K1 K2) as (o & Ho & L & E & G).
  destruct (desc_cmp_spec (Desc (u_addr v (decay y)) (c' ++ suffix cc ++ [0])) (Desc (u_addr u (decay x)) (c ++ suffix cc ++ [0])) _ _ K2 K1) as (o' & Ho' & L' & E' & G').
  exists o. split; [exact Ho|]. split.
  - rewrite Ho'. f_equal. destruct o; cbn.
    + apply E'. symmetry. now apply E.
    + apply G'. now apply L.
    + apply L'. now apply G.
  - rewrite E. split.
    + intros Q. apply app_inv_tail in Q. f_equal. now apply H.
    + intros [= ->]. now rewrite (proj1 H eq_refl).
Qed.
Lemma descriptor_default_void cc u v void y : decays void void ->
  well_spelled cc u -> well_spelled cc v -> one_string cc u v -> agree cc u v -> distinct cc u v ->
  exists e, both desc_eq (descriptor_default cc u void) (descriptor_v cc v y) = Some e /\ (e = true <-> decays y void).
Proof.
  intros V W1 W2 A G D. apply decays_iff in V. destruct (descriptor_identifies cc u v void y W1 W2 A G D) as (e & He & H).
  exists e. unfold descriptor_v at 1 in He. rewrite <- V in He. split; [exact He|]. rewrite H. split.
  - intros (d & D1 & D2). apply decays_iff in D1. congruence.
  - intros D2. exists void. split; [now apply decays_iff|exact D2].
Qed.

(** one unit agrees with itself *)
Lemma spells_unique cc nm c c' : spells cc nm c -> spells cc nm c' -> c = c'.
Proof.
  destruct 1 as [nm|nm|nm|nm|nm N1 N2]; inversion 1 as [| |nm' Q|nm' Q|nm' M1 M2 Q]; subst; auto; try discriminate.
  - destruct (M1 (cs " " ++ nm)). reflexivity.
  - destruct (M2 (cs " " ++ nm)). reflexivity.
  - destruct (N1 (cs " " ++ c')). reflexivity.
  - destruct (N2 (cs " " ++ c')). reflexivity.
Qed.
Lemma agree_self cc u : agree cc u u.
Proof. intros x d c _ S1 c' S2. now apply (spells_unique cc (u_name u d)). Qed.

Lemma pdescriptor_identifies addr h x y : (forall x y d e, decays x d -> decays y e -> addr d = addr e -> d = e) ->
  (pdesc_eq (pdescriptor_v addr x) (pdescriptor_v addr y) = true <-> exists d, decays x d /\ decays y d) /\
  (pdesc_cmp (pdescriptor_v addr x) (pdescriptor_v addr y) = Eq <-> exists d, decays x d /\ decays y d) /\
  pdesc_cmp (pdescriptor_v addr y) (pdescriptor_v addr x) = CompOpp (pdesc_cmp (pdescriptor_v addr x) (pdescriptor_v addr y)) /\
  (pdesc_eq (pdescriptor_v addr x) (pdescriptor_v addr y) = true -> pdesc_hash h (pdescriptor_v addr x) = pdesc_hash h (pdescriptor_v addr y)).
Proof.
  intros I. assert (Q : addr (decay x) = addr (decay y) <-> exists d, decays x d /\ decays y d).
  { split.
    - intros E. exists (decay x). split; [apply decays_decay|]. rewrite (I x y (decay x) (decay y)); auto using decays_decay.
    - intros (d & D1 & D2). apply decays_iff in D1, D2. congruence. }
  unfold pdesc_eq, pdesc_cmp, pdesc_hash, pdescriptor_v. rewrite Nat.eqb_eq, Nat.compare_eq_iff.
  split; [exact Q|]. split; [exact Q|]. split; [apply Nat.compare_antisym|]. now intros ->.
Qed.
