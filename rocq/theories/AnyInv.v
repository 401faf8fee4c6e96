(** Invariant of a population of anys, and symbolic-execution lemmas for the primitives. *)
From stdpp Require Import gmap list.
From Verif Require Import TypeListModel TypeListSpec TypeListProofs AnyModel.

Lemma meqb_ok x y : meqb x y = true <-> x = y.
Proof. unfold meqb. by rewrite bool_decide_eq_true. Qed.

(** Standing assumptions about the environment (language and allocator requirements):
    sizeof is positive; trivially copyable types are trivially destructible; an allocator that is empty and default
    constructible (so that copies are made with Alloc{}) has interchangeable instances. *)
Record env_wf (E : env) : Prop := {
  wf_size : forall T, 0 < ty_size (e_ty E T);
  wf_tcopy : forall T, ty_tcopy (e_ty E T) = true -> ty_tdestr (e_ty E T) = true;
  wf_copy_alloc : e_copy_req_alloc E = false -> e_always_eq E = true
}.

(** Entries of the table behind [v], read through a static list [ms], are T's implementations. *)
Definition vt_entries (ms : list method) (v : vptr) (T : nat) : Prop :=
  forall k m, nth_error ms k = Some m -> nth_error (vp_tab v) (vp_off v + k) = Some (T, m).
Definition vt_alive (w : world) (v : vptr) : Prop :=
  match vp_home v with None => True | Some r => is_Some (w_sref w !! r) end.

(** an any together with the block it points to *)
Definition block_of (w : world) (a : any) : option block :=
  match a_vp a with PHeap b => w_heap w !! b | PData _ => None end.
Definition view (w : world) (i : nat) : option (any * option block) :=
  match w_any w !! i with Some a => Some (a, block_of w a) | None => None end.

Definition any_ok (E : env) (i : nat) (a : any) (ob : option block) : Prop :=
  In MDestroy (a_ms a) /\
  match a_vp a with
  | PData k =>
      k = i /\
      match a_vt a with
      | Some v => exists T x id, vt_entries (a_ms a) v T /\ a_un a = UObj (Obj T x id) /\
                    fits E T = true
      | None => un_free E (a_un a) = true
      end
  | PHeap b =>
      exists al n bo, ob = Some (Block al n bo) /\ alloc_eqb E (a_alloc a) al = true /\
        a_un a = USize n /\
        match a_vt a with
        | Some v => exists T x id, vt_entries (a_ms a) v T /\ bo = Some (Obj T x id) /\
                      ty_size (e_ty E T) <= n /\ ty_align (e_ty E T) <= max_align
        | None => bo_free E bo = true
        end
  end.

Definition home_ok (w : world) (a : any) : Prop :=
  match a_vt a with Some v => vt_alive w v | None => True end.

Record Inv (E : env) (w : world) : Prop := {
  inv_ok : forall i a, w_any w !! i = Some a -> any_ok E i a (block_of w a);
  inv_home : forall i a, w_any w !! i = Some a -> home_ok w a;
  inv_inj : forall i j a a' b, w_any w !! i = Some a -> w_any w !! j = Some a' ->
              a_vp a = PHeap b -> a_vp a' = PHeap b -> i = j;
  inv_own : forall b x, w_heap w !! b = Some x ->
              exists i a, w_any w !! i = Some a /\ a_vp a = PHeap b;
  inv_fresh : forall b x, w_heap w !! b = Some x -> b < w_next w
}.

(** Effect summary: only the anys in [S] may have changed (fields or block). *)
Record Eff (S : gset nat) (w w' : world) : Prop := {
  eff_view : forall k, k ∉ S -> view w' k = view w k;
  eff_sref : w_sref w' = w_sref w;
  eff_next : w_next w <= w_next w'
}.

(** number of allocations so far *)
Definition is_alloc (e : event) : bool := match e with EvAlloc _ _ _ => true | _ => false end.
Definition allocs (w : world) : nat := length (List.filter is_alloc (w_log w)).

(** ** Abstract content *)
Definition content_of (a : any) (ob : option block) : option (nat * nat) :=
  match a_vt a with
  | None => None
  | Some _ =>
      match a_vp a with
      | PData _ => match a_un a with UObj o => Some (o_ty o, o_val o) | _ => None end
      | PHeap _ => match ob with
                   | Some x => match b_obj x with Some o => Some (o_ty o, o_val o) | None => None end
                   | None => None
                   end
      end
  end.
Definition content (w : world) (i : nat) : option (option (nat * nat)) :=
  match view w i with Some (a, ob) => Some (content_of a ob) | None => None end.

(** ** Monad steps *)
Lemma bind_ok {A B} (m : M A) (f : A -> M B) w a w' : m w = Ok a w' -> bindM m f w = f a w'.
Proof. unfold bindM. by intros ->. Qed.
Lemma bind_exn {A B} (m : M A) (f : A -> M B) w w' : m w = Exn w' -> bindM m f w = Exn w'.
Proof. unfold bindM. by intros ->. Qed.
Lemma bind_term {A B} (m : M A) (f : A -> M B) w : m w = Term -> bindM m f w = Term.
Proof. unfold bindM. by intros ->. Qed.
Lemma bind_get_any {B} i (f : any -> M B) w a : w_any w !! i = Some a -> bindM (get_any i) f w = f a w.
Proof. intros H. unfold bindM, get_any. by rewrite H. Qed.
Lemma noexcept_ok {A} b (m : M A) w a w' : m w = Ok a w' -> noexcept_if b m w = Ok a w'.
Proof. unfold noexcept_if. by intros ->. Qed.
Lemma noexcept_false {A} (m : M A) w : noexcept_if false m w = m w.
Proof. unfold noexcept_if. by destruct (m w). Qed.
Lemma onexn_ok {A} (m : M A) h w a w' : m w = Ok a w' -> on_exn m h w = Ok a w'.
Proof. unfold on_exn. by intros ->. Qed.
Lemma onexn_exn {A} (m : M A) h w w' w'' : m w = Exn w' -> h w' = Ok tt w'' -> on_exn m h w = Exn w''.
Proof. unfold on_exn. by intros -> ->. Qed.

Lemma get_any_ok i w a : w_any w !! i = Some a -> get_any i w = Ok a w.
Proof. unfold get_any. by intros ->. Qed.
Lemma put_any_ok i w a a' : w_any w !! i = Some a -> put_any i a' w = Ok tt (set_any w (<[i := a']> (w_any w))).
Proof. unfold put_any. by intros ->. Qed.

Lemma set_vt_ok i v w a : w_any w !! i = Some a ->
  set_vt i v w = Ok tt (set_any w (<[i := Any v (a_vp a) (a_un a) (a_alloc a) (a_ms a)]> (w_any w))).
Proof. intros H. unfold set_vt. rewrite (bind_get_any _ _ _ _ H). by apply put_any_ok with a. Qed.
Lemma set_vp_ok i p w a : w_any w !! i = Some a ->
  set_vp i p w = Ok tt (set_any w (<[i := Any (a_vt a) p (a_un a) (a_alloc a) (a_ms a)]> (w_any w))).
Proof. intros H. unfold set_vp. rewrite (bind_get_any _ _ _ _ H). by apply put_any_ok with a. Qed.
Lemma set_alloc_ok i al w a : w_any w !! i = Some a ->
  set_alloc i al w = Ok tt (set_any w (<[i := Any (a_vt a) (a_vp a) (a_un a) al (a_ms a)]> (w_any w))).
Proof. intros H. unfold set_alloc. rewrite (bind_get_any _ _ _ _ H). by apply put_any_ok with a. Qed.
Lemma set_size_ok E i n w a : w_any w !! i = Some a -> un_free E (a_un a) = true ->
  set_size E i n w = Ok tt (set_any w (<[i := Any (a_vt a) (a_vp a) (USize n) (a_alloc a) (a_ms a)]> (w_any w))).
Proof.
  intros H H2. unfold set_size. rewrite (bind_get_any _ _ _ _ H). rewrite H2. cbn.
  unfold bindM, ensure, retM. by apply put_any_ok with a.
Qed.
Lemma get_size_ok i n w a : w_any w !! i = Some a -> a_un a = USize n -> get_size i w = Ok n w.
Proof. intros H H2. unfold get_size. rewrite (bind_get_any _ _ _ _ H). by rewrite H2. Qed.

(** ** Objects at places *)
Definition obj_at (w : world) (p : ptr) : option obj :=
  match p with
  | PData i => match w_any w !! i with
               | Some a => match a_un a with UObj o => Some o | _ => None end
               | None => None end
  | PHeap b => match w_heap w !! b with Some x => b_obj x | None => None end
  end.

Lemma read_obj_ok w p o : obj_at w p = Some o -> read_obj p w = Ok o w.
Proof.
  destruct p as [i|b]; simpl; unfold read_obj, bindM, get_any, get_block.
  - destruct (w_any w !! i) as [a|]; [|done]. destruct (a_un a); try done. by intros [= ->].
  - destruct (w_heap w !! b) as [x|]; [|done]. destruct (b_obj x); try done. by intros [= ->].
Qed.
Lemma read_as_ok w p o T : obj_at w p = Some o -> o_ty o = T -> read_as T p w = Ok o w.
Proof.
  intros H1 H2. unfold read_as. rewrite (bind_ok _ _ _ _ _ (read_obj_ok _ _ _ H1)).
  rewrite bool_decide_true; done.
Qed.

(** the world after writing a place *)
Definition write_w (w : world) (p : ptr) (o : option obj) : world :=
  match p with
  | PData i => match w_any w !! i with
               | Some a => set_any w (<[i := Any (a_vt a) (a_vp a)
                     (match o with Some x => UObj x | None => UEmpty end) (a_alloc a) (a_ms a)]> (w_any w))
               | None => w end
  | PHeap b => match w_heap w !! b with
               | Some x => set_heap w (<[b := Block (b_alloc x) (b_size x) o]> (w_heap w))
               | None => w end
  end.

Definition place_exists (w : world) (p : ptr) : Prop :=
  match p with PData i => is_Some (w_any w !! i) | PHeap b => is_Some (w_heap w !! b) end.

Lemma write_place_ok w p o : place_exists w p -> write_place p o w = Ok tt (write_w w p o).
Proof.
  destruct p as [i|b]; simpl; intros [x Hx]; rewrite Hx; unfold bindM, get_any, get_block, put_any, put_block;
    rewrite Hx; cbn; by rewrite Hx.
Qed.

(** may a T be created at p *)
Definition place_fit (E : env) (w : world) (T : nat) (p : ptr) : Prop :=
  ty_align (e_ty E T) <= max_align /\
  match p with
  | PData i => exists a, w_any w !! i = Some a /\ ty_size (e_ty E T) <= e_soos E /\ un_free E (a_un a) = true
  | PHeap b => exists x, w_heap w !! b = Some x /\ ty_size (e_ty E T) <= b_size x /\ bo_free E (b_obj x) = true
  end.

Lemma place_fit_exists E w T p : place_fit E w T p -> place_exists w p.
Proof. destruct p; intros [_ (x & H & _)]; by exists x. Qed.

Lemma check_place_ok E w T p : place_fit E w T p -> check_place E T p w = Ok tt w.
Proof.
  intros [Ha H]. unfold check_place.
  assert (ty_align (e_ty E T) <=? max_align = true) as -> by by apply Nat.leb_le.
  unfold bindM at 1, ensure, retM. destruct p as [i|b].
  - destruct H as (a & Hi & Hs & Hf). rewrite (bind_get_any _ _ _ _ Hi).
    apply Nat.leb_le in Hs. rewrite Hs, Hf. done.
  - destruct H as (a & Hi & Hs & Hf). unfold bindM, get_block. rewrite Hi.
    apply Nat.leb_le in Hs. rewrite Hs, Hf. done.
Qed.

Definition src_reads (w : world) (T : nat) (s : src) (v : nat) : Prop :=
  match s with
  | SVal v' => v' = v
  | SRef p => exists id, obj_at w p = Some (Obj T v id)
  end.

Lemma read_src_ok w T s v : src_reads w T s v -> read_src T s w = Ok v w.
Proof.
  destruct s as [v'|p]; simpl; [by intros ->|]. intros [id H].
  by rewrite (bind_ok _ _ _ _ _ (read_as_ok _ _ _ T H eq_refl)).
Qed.

(** the world after a successful / failed construction *)
Definition ctor_w (E : env) (w : world) (T : nat) (p : ptr) (v : nat) (asked : bool) : world :=
  let w1 := if asked then set_tick w (S (w_tick w)) else w in
  let w2 := write_w (set_next w1 (S (w_next w))) p (Some (Obj T v (w_next w))) in
  if ty_tdestr (e_ty E T) then w2 else add_log w2 (EvCtor (w_next w) T).

Lemma place_exists_tick w n p : place_exists w p -> place_exists (set_tick w n) p.
Proof. by destruct p. Qed.
Lemma place_exists_next w n p : place_exists w p -> place_exists (set_next w n) p.
Proof. by destruct p. Qed.

Lemma construct_ok E w T p s v (nt : bool) :
  place_fit E w T p -> src_reads w T s v ->
  (nt = true \/ e_throws E (w_tick w) = false) ->
  construct E T p s nt w = Ok tt (ctor_w E w T p v (negb nt)).
Proof.
  intros Hf Hs Ht. unfold construct.
  rewrite (bind_ok _ _ _ _ _ (check_place_ok _ _ _ _ Hf)).
  rewrite (bind_ok _ _ _ _ _ (read_src_ok _ _ _ _ Hs)).
  apply place_fit_exists in Hf.
  assert (forall w1, w_next w1 = w_next w -> place_exists w1 p ->
     (let! id := fresh in write_place p (Some (Obj T v id));;;
        (if ty_tdestr (e_ty E T) then retM tt else emit (EvCtor id T))) w1
     = Ok tt (let w2 := write_w (set_next w1 (S (w_next w))) p (Some (Obj T v (w_next w))) in
              if ty_tdestr (e_ty E T) then w2 else add_log w2 (EvCtor (w_next w) T))) as Hgo.
  { intros w1 Hn Hp. unfold bindM at 1, fresh. rewrite Hn.
    rewrite (bind_ok _ _ _ _ _ (write_place_ok _ _ _ (place_exists_next _ _ _ Hp))).
    by destruct (ty_tdestr _). }
  destruct nt; simpl.
  - unfold bindM at 1, retM. by rewrite Hgo.
  - destruct Ht as [|Ht]; [done|]. unfold bindM at 1, ask. rewrite Ht.
    by rewrite (Hgo (set_tick w (S (w_tick w))) eq_refl (place_exists_tick _ _ _ Hf)).
Qed.

Lemma construct_exn E w T p s v :
  place_fit E w T p -> src_reads w T s v -> e_throws E (w_tick w) = true ->
  construct E T p s false w = Exn (write_w (set_tick w (S (w_tick w))) p None).
Proof.
  intros Hf Hs Ht. unfold construct.
  rewrite (bind_ok _ _ _ _ _ (check_place_ok _ _ _ _ Hf)).
  rewrite (bind_ok _ _ _ _ _ (read_src_ok _ _ _ _ Hs)).
  apply place_fit_exists in Hf. unfold bindM at 1, ask. rewrite Ht.
  by rewrite (bind_ok _ _ _ _ _ (write_place_ok _ _ _ (place_exists_tick _ _ _ Hf))).
Qed.

Lemma memcpy_ok E w T s d v id :
  place_fit E w T d -> obj_at w s = Some (Obj T v id) ->
  memcpy E T s d w = Ok tt (write_w (set_next w (S (w_next w))) d (Some (Obj T v (w_next w)))).
Proof.
  intros Hf Hs. unfold memcpy.
  rewrite (bind_ok _ _ _ _ _ (check_place_ok _ _ _ _ Hf)).
  rewrite (bind_ok _ _ _ _ _ (read_as_ok _ _ _ T Hs eq_refl)).
  unfold bindM, fresh. simpl o_val. apply place_fit_exists in Hf.
  by rewrite (write_place_ok _ _ _ (place_exists_next _ _ _ Hf)).
Qed.

Definition dtor_w (E : env) (w : world) (T : nat) (p : ptr) (id : nat) : world :=
  if ty_tdestr (e_ty E T) then write_w w p None else add_log (write_w w p None) (EvDtor id T).

Lemma obj_at_exists w p o : obj_at w p = Some o -> place_exists w p.
Proof. destruct p; simpl; case_match; try done; by eexists. Qed.

Lemma destroy_at_ok E w T p v id :
  obj_at w p = Some (Obj T v id) -> destroy_at E T p w = Ok tt (dtor_w E w T p id).
Proof.
  intros H. unfold destroy_at. rewrite (bind_ok _ _ _ _ _ (read_as_ok _ _ _ T H eq_refl)).
  rewrite (bind_ok _ _ _ _ _ (write_place_ok _ _ _ (obj_at_exists _ _ _ H))).
  unfold dtor_w. by destruct (ty_tdestr _).
Qed.

Definition alloc_w (w : world) (al n : nat) : world :=
  add_log (set_heap (set_next (set_tick w (S (w_tick w))) (S (w_next w)))
            (<[w_next w := Block al n None]> (w_heap w))) (EvAlloc (w_next w) al n).

Lemma allocate_ok E w al n : e_throws E (w_tick w) = false ->
  allocate E al n w = Ok (w_next w) (alloc_w w al n).
Proof. intros H. unfold allocate, bindM, ask, fresh, emit, retM. by rewrite H. Qed.
Lemma allocate_exn E w al n : e_throws E (w_tick w) = true ->
  allocate E al n w = Exn (set_tick w (S (w_tick w))).
Proof. intros H. unfold allocate, bindM, ask. by rewrite H. Qed.

Lemma deallocate_ok E w al b x n :
  w_heap w !! b = Some x -> alloc_eqb E al (b_alloc x) = true -> n = b_size x ->
  bo_free E (b_obj x) = true ->
  deallocate E al (PHeap b) n w = Ok tt (add_log (set_heap w (delete b (w_heap w))) (EvFree b al n)).
Proof.
  intros H1 H2 -> H4. unfold deallocate, bindM, get_block. rewrite H1, H2, H4, Nat.eqb_refl. done.
Qed.

Lemma vt_read_ok w ms v m T :
  vt_alive w v -> vt_entries ms v T -> In m ms -> vt_read ms v m w = Ok T w.
Proof.
  intros Ha He Hin. unfold vt_read.
  assert ((match vp_home v with None => true | Some r => bool_decide (is_Some (w_sref w !! r)) end) = true) as ->.
  { unfold vt_alive in Ha. destruct (vp_home v); [by apply bool_decide_true|done]. }
  destruct (number_of_first meqb m ms) as [k|] eqn:Hk.
  - apply (number_of_first_some meqb meqb_ok) in Hk. destruct Hk as [Hk _].
    rewrite (He _ _ Hk). assert (meqb m m = true) as -> by by apply meqb_ok. done.
  - apply (number_of_first_none meqb meqb_ok) in Hk. done.
Qed.

Lemma subtable_entries to from v v' T :
  subtable to from v = Some v' -> vt_entries from v T -> vt_entries to v' T.
Proof.
  unfold subtable. destruct (list_same meqb to from) eqn:Hs.
  - intros [= <-]. apply (list_same_spec meqb meqb_ok) in Hs. by subst.
  - destruct (find_subsequence meqb to from) as [[n|]|] eqn:Hf; try done. intros [= <-] He.
    apply (find_subsequence_occurs meqb meqb_ok) in Hf. destruct Hf as (pre & post & -> & <-).
    intros k m Hk. simpl. rewrite <- Nat.add_assoc. apply He.
    rewrite nth_error_app2 by lia. replace (length pre + k - length pre) with k by lia.
    rewrite nth_error_app1; [done|]. apply nth_error_Some. by rewrite Hk.
Qed.
Lemma subtable_home to from v v' : subtable to from v = Some v' -> vp_home v' = vp_home v.
Proof.
  unfold subtable. destruct (list_same _ _ _); [by intros [= <-]|].
  destruct (find_subsequence _ _ _) as [[n|]|]; try done. by intros [= <-].
Qed.
Lemma subtable_some to from v : contiguous to from -> exists v', subtable to from v = Some v'.
Proof.
  intros Hc. unfold subtable. destruct (list_same _ _ _); [by eexists|].
  destruct (find_subsequence_first meqb meqb_ok to from) as (r & -> & H1 & H2).
  destruct r as [n|]; [by eexists|]. exfalso. by apply H2.
Qed.
Lemma subtable_same ms v : subtable ms ms v = Some v.
Proof.
  unfold subtable. assert (list_same meqb ms ms = true) as -> by by apply (list_same_spec meqb meqb_ok).
  done.
Qed.
Lemma addr_vtable_entries T ms : vt_entries ms (addr_vtable_for T ms) T.
Proof. intros k m Hk. simpl. by rewrite nth_error_map, Hk. Qed.
