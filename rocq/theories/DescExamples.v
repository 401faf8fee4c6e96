(** An injective naming of types, to instantiate the theorems about descriptors. *)
From stdpp Require Import countable list.
From Coq Require Import String ZArith Lia.
From Verif Require Import DescModel DescSpec DescProofs.
Local Open Scope Z_scope.

Fixpoint spell (t : ctype) : list Z :=
  match t with
  | CBase n => 1 :: repeat 9 n ++ [10] | CPtr t => 2 :: spell t | CConst t => 3 :: spell t | CVolatile t => 4 :: spell t
  | CRef t => 5 :: spell t | CRRef t => 6 :: spell t | CArray t n => 7 :: repeat 9 n ++ 10 :: spell t | CFun n => 8 :: repeat 9 n ++ [10]
  end.

Lemma repeat_inj n m (r s : list Z) : repeat 9 n ++ 10 :: r = repeat 9 m ++ 10 :: s -> n = m /\ r = s.
Proof.
  revert m. induction n as [|n IH]; intros [|m]; cbn; [by intros [= ->]|done|done|]. intros [= H]. by destruct (IH _ H) as [-> ->].
Qed.
Lemma spell_prefix t u r s : spell t ++ r = spell u ++ s -> t = u /\ r = s.
Proof.
  revert u r s. induction t as [n|t IH|t IH|t IH|t IH|t IH|t IH n|n]; intros [m|u|u|u|u|u|u m|m] r s; cbn; intros [= H]; try done;
    rewrite <- ?app_assoc in H; cbn in H.
  - by destruct (repeat_inj _ _ _ _ H) as [-> ->].
  - by destruct (IH _ _ _ H) as [-> ->].
  - by destruct (IH _ _ _ H) as [-> ->].
  - by destruct (IH _ _ _ H) as [-> ->].
  - by destruct (IH _ _ _ H) as [-> ->].
  - by destruct (IH _ _ _ H) as [-> ->].
  - destruct (repeat_inj _ _ _ _ H) as [-> H']. by destruct (IH _ _ _ H') as [-> ->].
  - by destruct (repeat_inj _ _ _ _ H) as [-> ->].
Qed.
Lemma spell_inj t u : spell t = spell u -> t = u.
Proof. intros H. apply (spell_prefix t u [] []). by rewrite !app_nil_r. Qed.
Lemma spell_nonzero t : ~ In 0 (spell t).
Proof.
  assert (Hr : forall n, ~ In 0 (repeat 9 n)) by (intros n H; by apply repeat_spec in H).
  induction t; cbn; rewrite ?in_app_iff; cbn; specialize (Hr n) || idtac; intuition (try discriminate); eauto.
Qed.

(** a unit with a class key before the names of classes; [side] distinguishes the places of its literals from another unit's *)
Definition spell_key (key : string) (t : ctype) : list Z := match t with CBase _ => cs key ++ spell t | _ => spell t end.
Definition spell_unit (key : string) (side : nat) : unit_of := Unit (fun t => encode_nat (side, spell t)) (spell_key key).
(** the keys a compiler uses *)
Definition key_of (cc : compiler) (key : string) : Prop :=
  match cc with Msvc => key = "class "%string \/ key = "struct "%string | _ => key = ""%string end.
Lemma spell_head t : exists n r, spell t = n :: r /\ (0 < n <= 8)%Z.
Proof. destruct t; cbn [spell]; eexists _, _; (split; [reflexivity|lia]). Qed.
Lemma spell_spells cc key side d : key_of cc key -> spells cc (u_name (spell_unit key side) d) (spell d).
Proof.
  intros K. cbn [u_name spell_unit]. assert (N : spells Msvc (spell d) (spell d)).
  { destruct (spell_head d) as (n & r & H & Hn). constructor; intros q Q; rewrite H in Q; injection Q as Q _; rewrite Q in Hn; vm_compute in Hn; by destruct Hn. }
  destruct cc; cbn in K.
  - subst key. unfold spell_key. destruct d; constructor.
  - subst key. unfold spell_key. destruct d; constructor.
  - destruct d; cbn [spell_key]; try exact N. destruct K as [-> | ->]; constructor.
Qed.
Lemma spell_spells_inv cc key side d c : key_of cc key -> spells cc (u_name (spell_unit key side) d) c -> c = spell d.
Proof. intros K H. eapply spells_unique; [exact H|by apply spell_spells]. Qed.
Lemma spell_units cc k1 k2 s1 s2 : key_of cc k1 -> key_of cc k2 ->
  let u := spell_unit k1 s1 in let v := spell_unit k2 s2 in
  well_spelled cc u /\ well_spelled cc v /\ one_string cc u v /\ agree cc u v /\ distinct cc u v.
Proof.
  intros K1 K2. cbv zeta. assert (W : forall k s, key_of cc k -> well_spelled cc (spell_unit k s)).
  { intros k s K d. split; [|exists (spell d); by apply spell_spells]. cbn. unfold spell_key. destruct d; try apply spell_nonzero.
    rewrite in_app_iff. intros [H|H]; [|by apply spell_nonzero in H].
    destruct cc; cbn in K; subst; try done. destruct K as [-> | ->]; cbn in H; intuition discriminate. }
  split; [by apply W|]. split; [by apply W|]. split; [|split].
  - intros x y c c' Ha H1 H2. apply spell_spells_inv in H1, H2; try done. subst. cbn in Ha. apply (inj encode_nat) in Ha. congruence.
  - intros x d c _ H1 c' H2. apply spell_spells_inv in H1, H2; try done. by subst.
  - intros x y d e c _ _ H1 H2. apply spell_spells_inv in H1, H2; try done. apply spell_inj. congruence.
Qed.
Lemma descriptor_ok cc k1 k2 s1 s2 t u : key_of cc k1 -> key_of cc k2 -> decay t = decay u ->
  both desc_eq (descriptor_v cc (spell_unit k1 s1) t) (descriptor_v cc (spell_unit k2 s2) u) = Some true.
Proof.
  intros K1 K2 H. destruct (spell_units cc k1 k2 s1 s2 K1 K2) as (W1 & W2 & A & G & D).
  destruct (descriptor_identifies cc _ _ t u W1 W2 A G D) as (e & -> & He). f_equal. apply He. exists (decay t). split; apply decays_iff; congruence.
Qed.
Lemma descriptor_differs cc k1 k2 s1 s2 t u : key_of cc k1 -> key_of cc k2 -> decay t <> decay u ->
  both desc_eq (descriptor_v cc (spell_unit k1 s1) t) (descriptor_v cc (spell_unit k2 s2) u) = Some false.
Proof.
  intros K1 K2 H. destruct (spell_units cc k1 k2 s1 s2 K1 K2) as (W1 & W2 & A & G & D).
  destruct (descriptor_identifies cc _ _ t u W1 W2 A G D) as (e & -> & He). f_equal. destruct e; [|done]. destruct H.
  destruct (proj1 He eq_refl) as (d & D1 & D2). apply decays_iff in D1, D2. congruence.
Qed.
(** a unit where every type has the same name *)
Definition one_name (nm : string) (a : nat) : unit_of := Unit (fun _ => a) (fun _ => cs nm).
