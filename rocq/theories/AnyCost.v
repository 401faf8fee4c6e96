(** Proofs about what operations write and what they cost. *)
From stdpp Require Import gmap list.
From Verif Require Import TypeListModel TypeListSpec AnyModel AnyInv AnySteps AnyHistory AnyFacts AnyFacts2 AnyAssign AnyExec AnyRefuted AnyCostSpec PolyModel PolySpec.

(** ** Observers *)
Lemma wn_ret {A} (a : A) : writes_nothing (retM a). Proof. by intros w. Qed.
Lemma wn_ub {A} r : writes_nothing (@ubM A r). Proof. by intros w. Qed.
Lemma wn_throw {A} : writes_nothing (@throwM A). Proof. by intros w. Qed.
Lemma wn_bind {A B} (m : M A) (f : A -> M B) : writes_nothing m -> (forall a, writes_nothing (f a)) -> writes_nothing (bindM m f).
Proof.
  intros Hm Hf w. unfold bindM. specialize (Hm w). destruct (m w) as [a w1|w1| |]; try done. subst w1. apply Hf.
Qed.
Lemma wn_get_any i : writes_nothing (get_any i). Proof. intros w. unfold get_any. by destruct (w_any w !! i). Qed.
Lemma wn_get_sref r : writes_nothing (get_sref r). Proof. intros w. unfold get_sref. by destruct (w_sref w !! r). Qed.
Lemma wn_get_block b : writes_nothing (get_block b). Proof. intros w. unfold get_block. by destruct (w_heap w !! b). Qed.
Lemma wn_read_slot v k : writes_nothing (read_slot v k).
Proof. intros w. unfold read_slot. by repeat case_match; simplify_eq. Qed.
Lemma wn_vt_read ms v m : writes_nothing (vt_read ms v m).
Proof. intros w. unfold vt_read. by repeat case_match; simplify_eq. Qed.
Create HintDb wn discriminated.
Global Hint Resolve wn_ret wn_ub wn_throw wn_get_any wn_get_sref wn_get_block wn_read_slot wn_vt_read : wn.
Ltac wn := repeat first [ solve [auto with wn] | apply wn_bind; [|intros ?] | case_match ].

Lemma wn_get_size i : writes_nothing (get_size i). Proof. unfold get_size. wn. Qed.
Lemma wn_ensure b r : writes_nothing (ensure b r). Proof. unfold ensure. wn. Qed.
Lemma wn_any_slot i m : writes_nothing (any_slot i m). Proof. unfold any_slot. wn. Qed.
Lemma wn_read_obj p : writes_nothing (read_obj p). Proof. unfold read_obj. wn. Qed.
Global Hint Resolve wn_get_size wn_ensure wn_any_slot wn_read_obj : wn.
Lemma wn_read_as T p : writes_nothing (read_as T p). Proof. unfold read_as. wn. Qed.
Lemma wn_subtableM to from v : writes_nothing (subtableM to from v). Proof. unfold subtableM. wn. Qed.
Global Hint Resolve wn_subtableM : wn.
Lemma wn_sub_ptr to from v : writes_nothing (sub_ptr to from v). Proof. unfold sub_ptr. wn. Qed.
Lemma wn_need {X} (x : option X) : writes_nothing (need x). Proof. unfold need. wn. Qed.
Lemma wn_desc_eqM a b : writes_nothing (desc_eqM a b). Proof. unfold desc_eqM. wn. Qed.
Lemma wn_read_tab ms : forall v k, writes_nothing (read_tab v k ms).
Proof. induction ms as [|m ms IH]; intros v k; cbn [read_tab]; wn. Qed.
Global Hint Resolve wn_read_as wn_sub_ptr wn_need wn_desc_eqM wn_read_tab : wn.
Lemma wn_view_of O ms v : writes_nothing (view_of O ms v). Proof. unfold view_of. wn. Qed.
Global Hint Resolve wn_view_of : wn.
Lemma wn_mk_view O k ms v p : writes_nothing (mk_view O k ms v p). Proof. unfold mk_view. wn. Qed.
Global Hint Resolve wn_mk_view : wn.
Lemma wn_conv_view O k ms p : writes_nothing (conv_view O k ms p). Proof. unfold conv_view. wn. Qed.
Lemma wn_conv_ptr O k ms p : writes_nothing (conv_ptr O k ms p). Proof. unfold conv_ptr. wn; unfold conv_view; wn. Qed.
Lemma wn_ptr_any O i ms : writes_nothing (ptr_any O i ms). Proof. unfold ptr_any. wn. Qed.
Lemma wn_cptr_any O i ms : writes_nothing (cptr_any O i ms). Proof. unfold cptr_any. wn. Qed.
Global Hint Resolve wn_conv_view wn_conv_ptr wn_ptr_any wn_cptr_any : wn.

Lemma wn_run_step O st c : plain_step st -> writes_nothing (run_step O st c).
Proof. intros Hp. unfold run_step. destruct st; try done; destruct c as [[[] v p ms0]|[] r]; wn. Qed.
Lemma wn_run_steps O l : Forall plain_step l -> forall c, writes_nothing (run_steps O l c).
Proof. induction 1 as [|st l Hs _ IH]; intros c; cbn [run_steps]; [wn|]. apply wn_bind; [by apply wn_run_step|exact IH]. Qed.
Lemma wn_start O o : plain_origin o -> writes_nothing (start O o).
Proof. intros Hp. destruct o as [| |[]| |]; try done; cbn [start]; wn. Qed.
Lemma wn_cur_slot c m : writes_nothing (cur_slot c m). Proof. unfold cur_slot. wn. Qed.
Lemma wn_cur_ptr c : writes_nothing (cur_ptr c). Proof. unfold cur_ptr. wn. Qed.
Global Hint Resolve wn_cur_slot wn_cur_ptr : wn.
Lemma wn_self_of c : writes_nothing (self_of c). Proof. unfold self_of. wn. Qed.
Global Hint Resolve wn_self_of : wn.
Lemma wn_op_has_value x : writes_nothing (op_has_value x). Proof. unfold op_has_value. wn. Qed.
Lemma wn_op_slot x m : writes_nothing (op_slot x m). Proof. unfold op_slot. wn. Qed.
Lemma wn_op_ptr x : writes_nothing (op_ptr x). Proof. unfold op_ptr. wn. Qed.
Lemma wn_op_methods x : writes_nothing (op_methods x). Proof. unfold op_methods. case_match; [wn|by intros w]. Qed.
Lemma wn_val_at T q : writes_nothing (val_at T q). Proof. unfold val_at. wn. Qed.
Global Hint Resolve wn_op_has_value wn_op_slot wn_op_ptr wn_op_methods wn_val_at : wn.
Lemma wn_op_desc O x : writes_nothing (op_desc O x). Proof. unfold op_desc. wn. Qed.
Global Hint Resolve wn_op_desc : wn.
Lemma wn_ptr_desc O p : writes_nothing (ptr_desc O p). Proof. unfold ptr_desc. wn. Qed.
Global Hint Resolve wn_ptr_desc : wn.
Lemma wn_cast_any O x T : writes_nothing (cast_any O x T). Proof. unfold cast_any. wn. Qed.
Lemma wn_cast_ptr O p T : writes_nothing (cast_ptr O p T). Proof. unfold cast_ptr. wn. Qed.
Global Hint Resolve wn_cast_any wn_cast_ptr : wn.
Lemma wn_cast_any_ref O i T : writes_nothing (cast_any_ref O i T). Proof. unfold cast_any_ref. wn. Qed.
Lemma wn_cast_ref O p T : writes_nothing (cast_ref O p T).
Proof. unfold cast_ref. apply wn_bind; [by apply wn_run_step|intros ?]. wn. Qed.
Global Hint Resolve wn_cast_ref : wn.
Lemma wn_cast_state O b r T : writes_nothing (cast_state O b r T).
Proof. unfold cast_state. apply wn_bind; [by apply wn_run_step|intros ?]. wn. Qed.
Lemma wn_cmp O l r : writes_nothing (cmp_spaceship O l r). Proof. unfold cmp_spaceship. wn. Qed.
Lemma wn_eq_equal_to O l r : writes_nothing (eq_equal_to O l r). Proof. unfold eq_equal_to. wn. Qed.
Global Hint Resolve wn_cmp wn_eq_equal_to : wn.
Lemma wn_eq_spaceship O l r : writes_nothing (eq_spaceship O l r). Proof. unfold eq_spaceship. wn. Qed.
Global Hint Resolve wn_eq_spaceship : wn.
Lemma wn_eq_op O l r : writes_nothing (eq_op O l r). Proof. unfold eq_op. wn. Qed.
Lemma wn_hash_op O x : writes_nothing (hash_op O x). Proof. unfold hash_op. wn. Qed.
Lemma wn_ptr_eq O l r : writes_nothing (ptr_eq O l r). Proof. unfold ptr_eq. wn. Qed.
Global Hint Resolve wn_ptr_eq : wn.
Lemma wn_compare_ptrs O l r : writes_nothing (compare_ptrs O l r).
Proof.
  unfold compare_ptrs, ptr_eq_mixed. repeat case_match; try (auto with wn).
  apply wn_bind; [by apply wn_run_step|intros ?]. wn.
Qed.
Lemma wn_view_desc O c : writes_nothing (view_desc O c). Proof. unfold view_desc. wn. Qed.
Lemma wn_sizeof_now E i : writes_nothing (sizeof_now E i). Proof. unfold sizeof_now. wn. Qed.
Lemma wn_capacity E i : writes_nothing (capacity E i). Proof. unfold capacity. wn. Qed.
Lemma wn_is_stable i : writes_nothing (is_stable_pointers i). Proof. unfold is_stable_pointers. wn. Qed.

Lemma observers_write_nothing : forall E O i T (l r : operand) (p q : pval) (c : cur) (b : bool) s m,
  writes_nothing (sizeof_now E i) /\ writes_nothing (capacity E i) /\ writes_nothing (is_stable_pointers i) /\
  writes_nothing (op_has_value l) /\ writes_nothing (op_desc O l) /\ writes_nothing (view_desc O c) /\ writes_nothing (op_slot l m) /\
  writes_nothing (cast_any O (Some i) T) /\ writes_nothing (cast_any_ref O i T) /\ writes_nothing (cast_ptr O p T) /\
  writes_nothing (cast_ref O p T) /\ writes_nothing (cast_state O b s T) /\
  writes_nothing (eq_op O l r) /\ writes_nothing (cmp_spaceship O l r) /\ writes_nothing (hash_op O l) /\ writes_nothing (compare_ptrs O p q).
Proof.
  intros. repeat split; first [apply wn_sizeof_now|apply wn_capacity|apply wn_is_stable|apply wn_op_has_value|apply wn_op_desc|apply wn_view_desc
    |apply wn_op_slot|apply wn_cast_any|apply wn_cast_any_ref|apply wn_cast_ptr|apply wn_cast_ref|apply wn_cast_state|apply wn_eq_op|apply wn_cmp
    |apply wn_hash_op|apply wn_compare_ptrs].
Qed.
Lemma views_write_nothing : forall O o l, plain_origin o -> Forall plain_step l ->
  writes_nothing (let! c := start O o in run_steps O l c).
Proof. intros O o l Ho Hl. apply wn_bind; [by apply wn_start|intros c; by apply wn_run_steps]. Qed.

(** ** Creating from what is only read *)
Lemma view_any w w' k a : view w' k = view w k -> w_any w !! k = Some a -> w_any w' !! k = Some a /\ block_of w' a = block_of w a.
Proof.
  unfold view. intros Hv Ha. rewrite Ha in Hv. destruct (w_any w' !! k) as [a'|]; [|done]. by simplify_eq.
Qed.
Lemma view_heap E w w' (S : gset nat) : Inv E w -> untouched S w w' -> (forall k, k ∈ S -> w_any w !! k = None) ->
  (forall k a, w_any w !! k = Some a -> w_any w' !! k = Some a) /\ (forall b x, w_heap w !! b = Some x -> w_heap w' !! b = Some x).
Proof.
  intros HI Hu HS.
  assert (Hk : forall k a, w_any w !! k = Some a -> k ∉ S) by (intros k a Ha Hin; by rewrite (HS k Hin) in Ha).
  split.
  - intros k a Ha. by apply (view_any w w' k a (Hu k (Hk k a Ha)) Ha).
  - intros b x Hb. destruct (inv_own _ _ HI b x Hb) as (k & a & Ha & Hvp).
    destruct (view_any w w' k a (Hu k (Hk k a Ha)) Ha) as [_ Hbl]. unfold block_of in Hbl. rewrite Hvp in Hbl. congruence.
Qed.

(** ** Costs: [lo] to [hi] objects, up to [a] blocks; stateful references are left alone *)
Definition costs {A} (m : M A) (lo hi a : nat) : Prop := forall w,
  match m w with
  | Ok _ w' => (made w + Z.of_nat lo <= made w' <= made w + Z.of_nat hi /\ made w - Z.of_nat (ctors w) <= made w' - Z.of_nat (ctors w'))%Z /\ allocs w <= allocs w' <= allocs w + a /\ w_sref w' = w_sref w
  | Exn w' => (made w <= made w' <= made w + Z.of_nat hi /\ made w - Z.of_nat (ctors w) <= made w' - Z.of_nat (ctors w'))%Z /\ allocs w <= allocs w' <= allocs w + a /\ w_sref w' = w_sref w
  | UB _ | Term => True
  end.
Notation free m := (costs m 0 0 0).

Lemma c_weak {A} (m : M A) lo hi a lo' hi' a' : costs m lo hi a -> lo' <= lo -> hi <= hi' -> a <= a' -> costs m lo' hi' a'.
Proof. intros H L1 L2 L3 w. specialize (H w). destruct (m w); try done; destruct H as (Q1 & Q2 & Q3); (split; [lia|split; [lia|done]]). Qed.
Lemma c_bind {A B} (m : M A) (f : A -> M B) lo hi a lo' hi' a' : costs m lo hi a -> (forall x, costs (f x) lo' hi' a') ->
  costs (bindM m f) (lo + lo') (hi + hi') (a + a').
Proof.
  intros Hm Hf w. unfold bindM. specialize (Hm w). destruct (m w) as [x w1|w1| |]; try done.
  - specialize (Hf x w1). destruct Hm as (? & ? & ?). destruct (f x w1); try done; destruct Hf as (? & ? & ?); (split; [lia|split; [lia|congruence]]).
  - destruct Hm as (? & ? & ?). split; [lia|split; [lia|done]].
Qed.
Lemma c_first {A B} (m : M A) (f : A -> M B) lo hi a : costs m lo hi a -> (forall x, free (f x)) -> costs (bindM m f) lo hi a.
Proof. intros Hm Hf. eapply c_weak; [exact (c_bind m f _ _ _ _ _ _ Hm Hf)|lia..]. Qed.
Lemma c_then {A B} (m : M A) (f : A -> M B) lo hi a : free m -> (forall x, costs (f x) lo hi a) -> costs (bindM m f) lo hi a.
Proof. intros Hm Hf. exact (c_bind m f _ _ _ _ _ _ Hm Hf). Qed.
Lemma c_pure {A} (m : M A) : writes_nothing m -> free m.
Proof. intros H w. specialize (H w). destruct (m w); try done; subst; (split; [lia|split; [lia|done]]). Qed.
Lemma c_ub {A} r lo hi a : costs (@ubM A r) lo hi a. Proof. by intros w. Qed.
Lemma c_throw {A} lo hi a : costs (@throwM A) lo hi a. Proof. intros w. cbn. split; [lia|split; [lia|done]]. Qed.
Lemma c_noexcept {A} b (m : M A) lo hi a : costs m lo hi a -> costs (noexcept_if b m) lo hi a.
Proof. intros H w. unfold noexcept_if. specialize (H w). destruct (m w); try done. by destruct b. Qed.
Lemma c_onexn {A} (m : M A) h lo hi a : costs m lo hi a -> free h -> costs (on_exn m h) lo hi a.
Proof.
  intros Hm Hh w. unfold on_exn. specialize (Hm w). destruct (m w) as [|w1| |]; try done.
  specialize (Hh w1). destruct Hm as (? & ? & ?). destruct (h w1); try done; destruct Hh as (? & ? & ?); (split; [lia|split; [lia|congruence]]).
Qed.
Ltac tr := unfold made, allocs, ctors; cbn [w_next w_log w_sref set_any set_heap set_sref set_next set_tick add_log List.filter is_alloc is_ctor length];
  split; [lia|split; [lia|done]].
Lemma f_put_any i a : free (put_any i a).
Proof. intros w. unfold put_any. destruct (w_any w !! i); [|done]. tr. Qed.
Lemma f_put_block i a : free (put_block i a).
Proof. intros w. unfold put_block. destruct (w_heap w !! i); [|done]. tr. Qed.
Lemma f_ask E : free (ask E).
Proof. intros w. unfold ask. tr. Qed.
Lemma f_heap f : free (fun w => Ok tt (set_heap w (f (w_heap w)))).
Proof. intros w. tr. Qed.
Lemma f_emit e : is_alloc e = false -> is_ctor e = false -> free (emit e).
Proof. intros He Hc w. unfold emit, add_log, made, allocs, ctors. cbn. rewrite He, Hc. split; [lia|split; [lia|done]]. Qed.
Lemma c_fresh : costs fresh 1 1 0.
Proof. intros w. unfold fresh. tr. Qed.
Create HintDb fr discriminated.
Global Hint Resolve f_put_any f_put_block f_ask f_heap c_ub c_throw : fr.
Ltac fr := repeat first [ solve [auto with fr] | solve [apply c_pure; auto with wn] | solve [apply f_emit; done] | apply c_noexcept
  | apply c_onexn | apply c_then; [|intros ?] | case_match ].

Section Cost.
  Context (E : env).
  Lemma f_set_vt i v : free (set_vt i v). Proof. unfold set_vt. fr. Qed.
  Lemma f_set_vp i v : free (set_vp i v). Proof. unfold set_vp. fr. Qed.
  Lemma f_set_alloc i v : free (set_alloc i v). Proof. unfold set_alloc. fr. Qed.
  Lemma f_set_size i v : free (set_size E i v). Proof. unfold set_size. fr. Qed.
  Lemma f_write_place p o : free (write_place p o). Proof. unfold write_place. fr. Qed.
  Lemma f_check_place T p : free (check_place E T p). Proof. unfold check_place. fr. Qed.
  Lemma f_read_src T s : free (read_src T s). Proof. unfold read_src. fr. Qed.
  Hint Resolve f_set_vt f_set_vp f_set_alloc f_set_size f_write_place f_check_place f_read_src : fr.
  Lemma f_destroy_at T p : free (destroy_at E T p). Proof. unfold destroy_at. fr. Qed.
  Lemma f_deallocate al p n : free (deallocate E al p n).
  Proof. unfold deallocate. fr. Qed.
  Hint Resolve f_destroy_at f_deallocate : fr.
  Lemma f_call_destroy T p : free (call_destroy E T p). Proof. unfold call_destroy. fr. Qed.
  Hint Resolve f_call_destroy : fr.
  Lemma f_destroy_value i : free (destroy_value E i). Proof. unfold destroy_value. fr. Qed.
  Lemma f_deallocate_memory i : free (deallocate_memory E i). Proof. unfold deallocate_memory. fr. Qed.
  Hint Resolve f_destroy_value f_deallocate_memory : fr.
  Lemma f_reset i : free (reset E i). Proof. unfold reset. fr. Qed.
  Hint Resolve f_reset : fr.
  Lemma f_drop i : free (drop_any E i).
  Proof. unfold drop_any. fr. intros w. tr. Qed.
  Lemma f_new i al ms : free (new_any i al ms).
  Proof. intros w. unfold new_any. destruct (w_any w !! i); [done|]. tr. Qed.
  Hint Resolve f_drop f_new : fr.
  Lemma f_dtor i : free (dtor E i). Proof. unfold dtor. fr. Qed.
  Lemma f_write_size d n : free (write_size_at E d n). Proof. unfold write_size_at. fr. Qed.
  Lemma f_get_move_fn i : free (get_move_fn i). Proof. unfold get_move_fn. fr. Qed.
  Hint Resolve f_dtor f_write_size f_get_move_fn : fr.

  Lemma c_construct T p s nt : costs (construct E T p s nt) 1 1 0.
  Proof.
    unfold construct. apply c_then; [fr|intros _]. apply c_then; [fr|intros v]. apply c_then; [fr|intros thr].
    destruct thr; [apply c_then; [fr|intros _; fr]|].
    intros w. unfold bindM, fresh. set (id := w_next w). set (w1 := set_next w (S id)).
    pose proof (f_write_place p (Some (Obj T v id)) w1) as H.
    assert (made w1 = made w + 1 /\ ctors w1 = ctors w /\ allocs w1 = allocs w /\ w_sref w1 = w_sref w)%Z as (Q1 & Q2 & Q3 & Q4).
    { unfold w1, made, ctors, allocs. cbn. split; [lia|done]. }
    destruct (write_place p (Some (Obj T v id)) w1) as [[] w2|w2| |]; try done; destruct H as (H1 & H2 & H3).
    - destruct (ty_tdestr (e_ty E T)); unfold retM, emit; [split; [lia|split; [lia|congruence]]|].
      unfold made, allocs, ctors in *. cbn [w_next w_log w_sref add_log List.filter is_alloc is_ctor length]. split; [lia|split; [lia|congruence]].
    - split; [lia|split; [lia|congruence]].
  Qed.
  Lemma c_memcpy T s d : costs (memcpy E T s d) 1 1 0.
  Proof. unfold memcpy. apply c_then; [fr|intros _]. apply c_then; [fr|intros o]. apply c_first; [apply c_fresh|intros id; fr]. Qed.
  Lemma c_allocate al n : costs (allocate E al n) 0 0 1.
  Proof.
    intros w. unfold allocate, bindM, ask, throwM. destruct (e_throws E (w_tick w)).
    - tr.
    - unfold fresh, emit, retM. tr.
  Qed.
  Lemma c_relocate T s d : costs (relocate E T s d) 1 1 0.
  Proof.
    unfold relocate. case_match; [apply c_memcpy|]. apply c_noexcept. apply c_first; [apply c_construct|intros ?; fr].
  Qed.
  Lemma c_copy_fn T al s d : costs (copy_fn E T al s d) 1 1 1.
  Proof.
    assert (Hal : forall n (f : nat -> M ptr), (forall b, costs (f b) 1 1 0) -> costs (let! b := allocate E al n in f b) 1 1 1).
    { intros n f Hf. exact (c_bind _ f _ _ _ _ _ _ (c_allocate al n) Hf). }
    unfold copy_fn. case_match; case_match.
    - eapply c_weak; [apply c_first; [apply c_memcpy|intros ?; fr]|lia..].
    - apply Hal. intros b. apply c_first; [apply c_memcpy|intros ?; fr].
    - eapply c_weak; [apply c_first; [apply c_construct|intros ?; fr]|lia..].
    - apply Hal. intros b. apply c_first; [|intros ?; fr]. case_match; [apply c_construct|]. apply c_onexn; [apply c_construct|fr].
  Qed.
  Lemma c_construct_value i T s nt : costs (construct_value E i T s nt) 1 1 0.
  Proof. unfold construct_value. apply c_noexcept. apply c_then; [fr|intros a]. apply c_first; [apply c_construct|intros ?; fr]. Qed.
  Lemma c_emplace_in_empty i T f s nt : costs (emplace_in_empty E i T f s nt) 1 1 1.
  Proof.
    unfold emplace_in_empty. case_match; [eapply c_weak; [apply c_construct_value|lia..]|].
    apply c_then; [fr|intros a]. apply (c_bind (allocate E _ _) _ 0 0 1 1 1 0 (c_allocate _ _)). intros b.
    apply c_then; [fr|intros _]. apply c_then; [fr|intros _]. case_match; [apply c_construct_value|].
    apply c_onexn; [apply c_construct_value|fr].
  Qed.
  Lemma c_ctor i al ms m lo hi a : costs m lo hi a -> costs (ctor E i al ms m) lo hi a.
  Proof. intros Hm. unfold ctor. apply c_then; [fr|intros _]. apply c_onexn; [done|fr]. Qed.
  Lemma c_emplace i T s nt : costs (emplace E i T s nt) 1 1 1.
  Proof.
    unfold emplace. apply c_noexcept. apply c_then; [fr|intros _]. apply c_then; [fr|intros a].
    case_match; [apply c_emplace_in_empty|]. apply c_then; [fr|intros n]. case_match.
    - apply c_then; [fr|intros _]. apply c_emplace_in_empty.
    - eapply c_weak; [apply c_construct_value|lia..].
  Qed.
  Lemma c_replace i n : costs (replace_with_bytes E i n) 0 0 1.
  Proof.
    unfold replace_with_bytes. apply c_then; [fr|intros _]. apply c_then; [apply c_pure, wn_capacity|intros c].
    case_match; [eapply c_weak; [fr|lia..]|]. apply c_then; [fr|intros a]. apply c_first; [apply c_allocate|intros b; fr].
  Qed.
  Lemma c_move_value_from reuse i j : costs (move_value_from E reuse i j) 0 1 (if reuse then 0 else 1).
  Proof.
    unfold move_value_from. apply c_noexcept. apply c_then; [fr|intros a]. apply c_then; [fr|intros _]. apply c_then; [fr|intros o].
    case_match; [eapply c_weak; [fr|lia..]|]. apply c_first; [|intros _; fr].
    case_match; [eapply c_weak; [fr|lia..]|]. case_match.
    - eapply c_weak; [apply c_then; [fr|intros T]; apply c_then; [fr|intros a']; apply c_relocate|lia..].
    - destruct reuse; [eapply c_weak; [fr|lia..]|]. apply c_then; [fr|intros n].
      apply (c_bind (allocate E _ _) _ 0 0 1 0 1 0 (c_allocate _ _)). intros b.
      apply c_then; [fr|intros _]. apply c_then; [fr|intros n']. apply c_then; [fr|intros _].
      apply c_onexn; [|fr]. eapply c_weak; [apply c_then; [fr|intros T]; apply c_relocate|lia..].
  Qed.
  Lemma c_copy_body i j : costs (copy_body E i j) 0 1 1.
  Proof.
    unfold copy_body. apply c_then; [fr|intros o]. case_match; [eapply c_weak; [fr|lia..]|].
    apply c_then; [fr|intros T]. apply c_then; [fr|intros a]. eapply c_weak; [apply c_first; [apply c_copy_fn|intros p; fr]|lia..].
  Qed.
  Lemma c_copy_ctor i j ms : costs (copy_ctor E i j ms) 0 1 1.
  Proof. unfold copy_ctor. apply c_then; [fr|intros o]. apply c_ctor, c_copy_body. Qed.
  Lemma c_move_ctor i j : costs (move_ctor E i j) 0 1 0.
  Proof. unfold move_ctor. apply c_then; [fr|intros o]. apply c_noexcept, c_ctor, (c_move_value_from true). Qed.
  Lemma c_trans_move i j ms : costs (trans_move_ctor E i j ms) 0 1 0.
  Proof. unfold trans_move_ctor. apply c_noexcept, c_ctor, (c_move_value_from true). Qed.
  Lemma c_move_assign i j : costs (move_assign E i j) 0 1 (if movable_alloc E then 0 else 1).
  Proof.
    assert (Hmv : costs (move_value_from E true i j) 0 1 (if movable_alloc E then 0 else 1))
      by (eapply c_weak; [apply (c_move_value_from true)|lia..]).
    unfold move_assign. apply c_noexcept. destruct (i =? j); [eapply c_weak; [fr|lia..]|].
    destruct (e_always_eq E) eqn:Hae; [apply c_then; [fr|intros _; done]|]. destruct (e_pocma E) eqn:Hp.
    - apply c_then; [fr|intros _]. apply c_then; [fr|intros a]. apply c_then; [fr|intros o]. apply c_then; [fr|intros _; done].
    - apply c_then; [fr|intros _]. apply c_then; [fr|intros a]. apply c_then; [fr|intros o].
      destruct (negb (alloc_eqb E (a_alloc a) (a_alloc o))); [|apply c_then; [fr|intros _; done]]. apply c_then; [fr|intros reuse]. destruct reuse.
      + apply c_then; [fr|intros T]. eapply c_weak; [apply c_first; [apply c_relocate|intros ?; fr]|lia..].
      + apply c_then; [fr|intros _]. assert (movable_alloc E = false) as -> by (unfold movable_alloc; by rewrite Hae, Hp).
        apply (c_move_value_from false).
  Qed.
  Lemma c_copy_assign i j t : costs (copy_assign E i j t) 0 2 (if movable_alloc E then 1 else 2).
  Proof.
    unfold copy_assign. apply c_then; [fr|intros o].
    eapply c_weak; [apply (c_bind (copy_ctor E t j (a_ms o)) _ 0 1 1 0 1 (if movable_alloc E then 0 else 1) (c_copy_ctor _ _ _)); intros _|
                    lia|lia|case_match; lia].
    apply c_first; [|intros _; fr]. apply c_onexn; [|fr]. apply c_then; [fr|intros _]. apply c_move_assign.
  Qed.
  Lemma c_swap i j t : costs (swap_any E i j t) 0 3 (if movable_alloc E then 0 else 2).
  Proof.
    unfold swap_any.
    eapply c_weak; [apply (c_bind (move_ctor E t i) _ 0 1 0 0 2 (if movable_alloc E then 0 else 2) (c_move_ctor _ _)); intros _|lia|lia|lia].
    apply c_first; [|intros _; fr]. apply c_onexn; [|fr].
    eapply c_weak; [eapply c_bind; [apply c_move_assign|intros _; apply c_move_assign]|lia|lia|case_match; lia].
  Qed.
  Lemma f_invoke i n x : free (invoke E i n x). Proof. unfold invoke. fr. Qed.
  Lemma wn_make_ref x : writes_nothing (make_ref x).
  Proof. unfold make_ref. destruct x; [wn|]. intros w. by destruct (w_sref w !! _). Qed.
  Lemma c_materialize i al x : costs (materialize E i al x) 1 1 1.
  Proof.
    unfold materialize. case_match; [apply c_ub|]. apply c_then; [apply c_pure, wn_make_ref|intros r].
    apply c_then; [fr|intros _]. apply c_then; [fr|intros _]. apply c_onexn; [|fr].
    apply c_then; [fr|intros T]. apply c_then; [fr|intros a]. apply c_first; [apply c_copy_fn|intros p; fr].
  Qed.
  Lemma f_eval_arg s : free (eval_arg s). Proof. unfold eval_arg. fr. Qed.
End Cost.

Lemma c_run E o : costs (run E o) 0 (most_objects o) (most_blocks o) \/ exists r, match o with OSref r' _ _ | ODropSref r' => r' = r | _ => False end.
Proof.
  destruct o; try (right; by eexists); left; cbn [run most_objects most_blocks].
  - apply f_new.
  - apply c_then; [apply f_eval_arg|intros x]. unfold value_ctor. eapply c_weak; [apply c_noexcept, c_ctor, c_emplace_in_empty|lia..].
  - apply c_then; [apply f_eval_arg|intros x]. unfold force_ctor. eapply c_weak; [apply c_noexcept, c_ctor, c_emplace_in_empty|lia..].
  - apply c_copy_ctor.
  - apply c_move_ctor.
  - apply c_trans_move.
  - eapply c_weak; [apply c_move_assign|lia|lia|case_match; lia].
  - eapply c_weak; [apply c_copy_assign|lia|lia|case_match; lia].
  - eapply c_weak; [apply c_swap|lia|lia|case_match; lia].
  - apply c_then; [apply f_eval_arg|intros x]. eapply c_weak; [apply c_emplace|lia..].
  - apply f_reset.
  - apply f_destroy_value.
  - apply c_replace.
  - apply c_first; [apply f_invoke|intros ?; apply c_pure, wn_ret].
  - apply f_dtor.
  - eapply c_weak; [apply c_materialize|lia..].
Qed.

Lemma sref_made E o w w' r : match o with OSref r' _ _ | ODropSref r' => r' = r | _ => False end -> outcome E o w w' ->
  (made w' = made w /\ ctors w' = ctors w) /\ allocs w' = allocs w /\ w_any w' = w_any w /\ w_heap w' = w_heap w /\ (match o with OSref _ _ _ => True | _ => False end -> forall q s, w_sref w !! q = Some s -> w_sref w' !! q = Some s).
Proof.
  intros Ho Hout. destruct o; try done; subst.
  - assert (Hp : forall v ms', writes_nothing (pick_slots ms' v ms)).
    { clear. intros v ms'. induction ms as [|m ms IH]; cbn [pick_slots]; wn. }
    destruct Hout as [H|H]; cbn in H; unfold new_sref, bindM, get_any in H; destruct (w_any w !! j) as [a|]; try done;
      destruct (a_vt a) as [v|]; try done; specialize (Hp v (a_ms a) w); destruct (pick_slots (a_ms a) v ms w) as [tab w1|w1| |]; try done; subst.
    3:{ by injection H as <-. }
    + destruct (w_sref w !! r) eqn:Hr; [done|]. injection H as <-. repeat split; try done. intros _ q s Hq. cbn.
      rewrite lookup_insert_ne; [done|]. congruence.
    + destruct (w_sref w !! r) eqn:Hr; done.
  - destruct Hout as [H|H]; cbn in H; [|done]. by injection H as <-.
Qed.

Lemma budget : forall E o w w', outcome E o w w' ->
  (made w <= made w' <= made w + Z.of_nat (most_objects o))%Z /\ ctors w' <= ctors w + most_objects o /\
  allocs w <= allocs w' <= allocs w + most_blocks o.
Proof.
  intros E o w w' Ho. destruct (c_run E o) as [H|[r Hr]].
  - specialize (H w). destruct Ho as [Ho|Ho]; rewrite Ho in H; destruct H as (? & ? & _); lia.
  - destruct (sref_made E o w w' r Hr Ho) as ([-> ->] & -> & _). split; [lia|lia].
Qed.

Lemma one_made : forall E o w w', makes_one w o -> run E o w = Ok tt w' -> made w' = (made w + 1)%Z.
Proof.
  intros E o w w' Hm Hrun.
  assert (Hc : (forall i j ms, o <> OCopy i j ms) -> costs (run E o) 1 1 1).
  { intros Hn. destruct o; try done; cbn [run]; try by destruct (Hn i j ms).
    - apply c_then; [apply f_eval_arg|intros x]. apply c_noexcept, c_ctor, c_emplace_in_empty.
    - apply c_then; [apply f_eval_arg|intros x]. apply c_noexcept, c_ctor, c_emplace_in_empty.
    - apply c_then; [apply f_eval_arg|intros x]. apply c_emplace.
    - apply c_materialize. }
  destruct o as [| | |i j ms| | | | | | | | | | | | | |]; try done.
  1,2,4,5: specialize (Hc ltac:(done) w); rewrite Hrun in Hc; destruct Hc as (? & _); lia.
  clear Hc. destruct Hm as (a & Ha & Hv). cbn in Hrun. unfold copy_ctor in Hrun.
  unfold bindM at 1, get_any at 1 in Hrun. rewrite Ha in Hrun. unfold ctor in Hrun.
  destruct (new_any i (e_socc E (a_alloc a)) ms w) as [[] w1| | |] eqn:Hn; try (unfold bindM in Hrun; by rewrite Hn in Hrun).
  rewrite (bind_ok _ _ _ _ _ Hn) in Hrun. pose proof (f_new i (e_socc E (a_alloc a)) ms w) as Hm. rewrite Hn in Hm. destruct Hm as (Hm & _).
  assert (Ha1 : w_any w1 !! j = Some a).
  { unfold new_any in Hn. destruct (w_any w !! i) eqn:Hi; [done|]. injection Hn as <-. cbn. rewrite lookup_insert_ne; [done|congruence]. }
  unfold on_exn in Hrun. destruct (copy_body E i j w1) as [[] w2|w2| |] eqn:Hb; try done; [|by destruct (drop_any E i w2)].
  injection Hrun as <-. unfold copy_body in Hb. rewrite (bind_get_any _ _ _ _ Ha1) in Hb. rewrite Hv in Hb. cbn [negb] in Hb.
  match type of Hb with ?m w1 = _ => assert (costs m 1 1 1) as Hc end.
  { apply c_then; [apply c_pure, wn_any_slot|intros T]. apply c_then; [apply c_pure, wn_get_any|intros a']. apply c_first; [apply c_copy_fn|].
    intros p. apply c_then; [apply f_set_vp|intros _]. case_match; [|apply c_ub]. apply c_then; [apply c_pure, wn_subtableM|intros ?]. apply f_set_vt. }
  specialize (Hc w1). rewrite Hb in Hc. destruct Hc as (? & _). lia.
Qed.

(** ** Memory that changes hands *)
Definition still {A} (m : M A) : Prop := forall w, match m w with Ok _ w' | Exn w' => made w' = made w /\ w_heap w' = w_heap w | _ => True end.
Lemma still_pure {A} (m : M A) : writes_nothing m -> still m.
Proof. intros H w. specialize (H w). by destruct (m w); subst. Qed.
Lemma still_bind {A B} (m : M A) (f : A -> M B) : still m -> (forall a, still (f a)) -> still (bindM m f).
Proof.
  intros Hm Hf w. unfold bindM. specialize (Hm w). destruct (m w) as [a w1|w1| |]; try done.
  destruct Hm as [H1 H2]. specialize (Hf a w1). destruct (f a w1); try done; destruct Hf; split; congruence.
Qed.
Lemma still_put i a : still (put_any i a).
Proof. intros w. unfold put_any. by destruct (w_any w !! i). Qed.
Ltac st := repeat first [apply still_put | solve [apply still_pure; auto with wn] | apply still_bind; [|intros ?] | case_match ].
Lemma steal_still E w i j o : w_any w !! j = Some o -> mem_allocated j o = true ->
  match move_value_from E true i j w with Ok _ w' | Exn w' => made w' = made w /\ w_heap w' = w_heap w | _ => True end.
Proof.
  intros Hj Hma. unfold move_value_from, noexcept_if. unfold bindM at 1, get_any at 1. destruct (w_any w !! i) as [a|] eqn:Hi; [|done].
  unfold ensure at 1. destruct (negb (has_val a) && negb (mem_allocated i a)); [|done]. unfold bindM at 1, retM at 1.
  rewrite (bind_get_any _ _ _ _ Hj). destruct (has_val o); cbn [negb]; [|done]. rewrite Hma. cbn [negb].
  match goal with |- match (match ?m w with _ => _ end) with _ => _ end => assert (still m) as Hs end.
  { assert (Hst : still (let! o' := get_any j in set_vp j (PData j) ;;; set_vp i (a_vp o') ;;; let! n := get_size j in set_size E i n)).
    { unfold set_vp, set_size. st. }
    apply still_bind; [|intros _; unfold set_vt; st]. by destruct (e_soos E =? 0). }
  specialize (Hs w). match goal with |- match (match ?x with _ => _ end) with _ => _ end => by destruct x end.
Qed.

Lemma contained_heap w i a v b : w_any w !! i = Some a -> a_vt a = Some v -> a_vp a = PHeap b -> contained w i = obj_at w (PHeap b).
Proof. intros Ha Hv Hp. unfold contained. by rewrite Ha, Hv, Hp. Qed.

Lemma address_heap w i b : address w i = Some (PHeap b) -> exists a v, w_any w !! i = Some a /\ a_vt a = Some v /\ a_vp a = PHeap b.
Proof.
  unfold address. destruct (w_any w !! i) as [a|]; [|done]. destruct (a_vt a) as [v|] eqn:Hv; [|done]. intros [= Hp]. by exists a, v.
Qed.
Lemma address_contained w w' i j b : address w j = Some (PHeap b) -> address w' i = Some (PHeap b) -> w_heap w' !! b = w_heap w !! b ->
  contained w' i = contained w j.
Proof.
  intros H1 H2 Hh. destruct (address_heap _ _ _ H1) as (a & v & Ha & Hv & Hp). destruct (address_heap _ _ _ H2) as (a' & v' & Ha' & Hv' & Hp').
  rewrite (contained_heap _ _ _ _ _ Ha Hv Hp), (contained_heap _ _ _ _ _ Ha' Hv' Hp'). unfold obj_at. by rewrite Hh.
Qed.

Lemma move_ctor_steals : forall E w w' i j b, env_wf E -> reachable E w -> pre E w (OMove i j) -> run E (OMove i j) w = Ok tt w' ->
  address w j = Some (PHeap b) -> made w' = made w /\ contained w' i = contained w j.
Proof.
  intros E w w' i j b Hwf Hr Hp Hrun Had. pose proof (move_keeps_address E w w' i j b Hwf Hr Hp Hrun Had) as Had'.
  destruct (address_heap _ _ _ Had) as (o & v & Ho & Hv & Hpo).
  assert (Hs : made w' = made w /\ w_heap w' = w_heap w).
  { cbn in Hrun. unfold move_ctor in Hrun. rewrite (bind_get_any _ _ _ _ Ho) in Hrun. unfold noexcept_if, ctor in Hrun.
    destruct (new_any i (a_alloc o) (a_ms o) w) as [[] w1| | |] eqn:Hn; unfold bindM in Hrun; rewrite Hn in Hrun; try done.
    2:{ by destruct (movable_alloc E). }
    unfold new_any in Hn. destruct (w_any w !! i) eqn:Hi; [done|]. injection Hn as <-.
    match type of Hrun with context [on_exn _ _ ?w1] => pose proof (steal_still E w1 i j o) as Hst end.
    cbn [w_any set_any] in Hst. rewrite lookup_insert_ne in Hst by congruence.
    specialize (Hst Ho). unfold mem_allocated in Hst. rewrite Hpo in Hst. specialize (Hst eq_refl).
    unfold on_exn in Hrun. match type of Hst with match ?m with _ => _ end => destruct m as [[] w2|w2| |] end; try done.
    - injection Hrun as <-. exact Hst.
    - match type of Hrun with context [drop_any ?a ?b ?c] => destruct (drop_any a b c) end; try done; by destruct (movable_alloc E). }
  destruct Hs as [H1 H2]. split; [done|]. apply (address_contained _ _ _ _ b); [done|done|by rewrite H2].
Qed.

Lemma move_assign_steals : forall E w w' i j b, env_wf E -> reachable E w -> pre E w (OMoveAssign i j) ->
  e_always_eq E = true \/ e_pocma E = true -> run E (OMoveAssign i j) w = Ok tt w' ->
  address w j = Some (PHeap b) -> made w' = made w /\ contained w' i = contained w j.
Proof.
  intros E w w' i j b Hwf Hr Hp Hal Hrun Had. pose proof (reachable_inv _ _ Hwf Hr) as HI.
  pose proof (move_assign_keeps_address E w w' i j b Hwf Hr Hp Hal Hrun Had) as Had'.
  destruct (address_heap _ _ _ Had) as (o & v & Ho & Hv & Hpo).
  assert (Hs : made w' = made w /\ w_heap w' !! b = w_heap w !! b).
  { destruct Hp as (a & Ha & _). cbn in Hrun. destruct (decide (i = j)) as [->|Hij].
    { rewrite move_assign_self in Hrun. by injection Hrun as <-. }
    destruct (reset_spec E w i a HI Ha) as (w1 & a1 & H1 & I1 & F1 & Q1 & Ha1 & Hv1 & Hp1 & Hal1 & Hm1).
    pose proof (f_reset E i w) as Hf. rewrite H1 in Hf. destruct Hf as (Hmade & _).
    assert (Ho1 : w_any w1 !! j = Some o) by (eapply view_lookup; [done|set_solver|done]).
    assert (Hh1 : w_heap w1 !! b = w_heap w !! b).
    { destruct (view_any w w1 j o) as [_ H]; [apply (eff_view _ _ _ F1); set_solver|done|]. unfold block_of in H. by rewrite Hpo in H. }
    assert (Hst : forall w2, w_any w2 !! j = Some o -> made w2 = made w1 -> w_heap w2 = w_heap w1 ->
      match move_value_from E true i j w2 with Ok _ w'' | Exn w'' => made w'' = made w /\ w_heap w'' !! b = w_heap w !! b | _ => True end).
    { intros w2 Ho2 Hm2 Hh2. pose proof (steal_still E w2 i j o Ho2) as H. unfold mem_allocated in H. rewrite Hpo in H. specialize (H eq_refl).
      destruct (move_value_from E true i j w2); try done; destruct H as [H3 H4]; (split; [lia|rewrite H4, Hh2; done]). }
    unfold move_assign in Hrun. rewrite (proj2 (Nat.eqb_neq i j) Hij) in Hrun. unfold noexcept_if in Hrun.
    destruct (e_always_eq E) eqn:Hae.
    - rewrite (bind_ok _ _ _ _ _ H1) in Hrun. specialize (Hst w1 Ho1 eq_refl eq_refl).
      destruct (move_value_from E true i j w1); try done; [by simplify_eq|by destruct (movable_alloc E)].
    - destruct Hal as [?|Hpm]; [done|]. rewrite Hpm in Hrun. rewrite (bind_ok _ _ _ _ _ H1) in Hrun.
      rewrite (bind_get_any _ _ _ _ Ha1), (bind_get_any _ _ _ _ Ho1) in Hrun.
      destruct (negb (alloc_eqb E (a_alloc a1) (a_alloc o))).
      + rewrite (bind_ok _ _ _ _ _ (set_alloc_ok i (a_alloc o) w1 a1 Ha1)) in Hrun.
        match type of Hrun with context [move_value_from E true i j ?w2] => specialize (Hst w2) end.
        cbn [w_any set_any] in Hst. rewrite lookup_insert_ne in Hst by done. specialize (Hst Ho1 eq_refl eq_refl).
        match type of Hst with match ?m with _ => _ end => destruct m end; try done; [by simplify_eq|by destruct (movable_alloc E)].
      + unfold bindM, retM in Hrun. specialize (Hst w1 Ho1 eq_refl eq_refl).
        destruct (move_value_from E true i j w1); try done; [by simplify_eq|by destruct (movable_alloc E)]. }
  destruct Hs as [H1 H2]. split; [done|]. by apply (address_contained _ _ _ _ b).
Qed.

(** ** Creating from what is only read *)
Lemma creating_keeps_old_memory : forall E w w' o, env_wf E -> reachable E w -> pre E w o -> only_creates o -> outcome E o w w' ->
  old_memory_kept w w'.
Proof.
  intros E w w' o Hwf Hr Hp Hc Ho. pose proof (reachable_inv _ _ Hwf Hr) as HI.
  assert (Hs : alloc_safe E w o) by by destruct o.
  assert (Hu : untouched (touches o) w w').
  { pose proof (step_safe E w o Hwf HI Hp Hs) as H. unfold wp in H. destruct Ho as [Ho|Ho]; rewrite Ho in H; by destruct H. }
  assert (Hnew : forall k, k ∈ touches o -> w_any w !! k = None).
  { intros k Hk. destruct o; try done; cbn in Hk; try (apply elem_of_singleton in Hk as ->); by destruct Hp. }
  destruct (view_heap E w w' _ HI Hu Hnew) as [H1 H2]. split; [done|]. split; [done|].
  destruct (c_run E o) as [Hcost|[r Hr']].
  - intros r s Hs'. specialize (Hcost w). destruct Ho as [Ho|Ho]; rewrite Ho in Hcost; destruct Hcost as (_ & _ & ->); done.
  - destruct (sref_made E o w w' r Hr' Ho) as (_ & _ & _ & _ & H). apply H. by destruct o.
Qed.

(** what a program does not touch it does not write *)
Lemma program_leaves_memory : forall E l w w' k a, env_wf E -> reachable E w -> allowed_alloc E l w -> exec E l w = Ok tt w' ->
  w_any w !! k = Some a -> (forall o, In o l -> k ∉ touches o) ->
  w_any w' !! k = Some a /\ forall b, owns w k b -> w_heap w' !! b = w_heap w !! b.
Proof.
  intros E l w w' k a Hwf. revert w. induction l as [|o tl IH]; intros w Hr Hall Hex Ha Ht; cbn in Hex; [by injection Hex as <-|].
  destruct Hall as (Hp & Hs & Hall). pose proof (reachable_inv _ _ Hwf Hr) as HI.
  assert (H : forall w1, outcome E o w w1 -> allowed_alloc E tl w1 -> exec E tl w1 = Ok tt w' ->
    w_any w' !! k = Some a /\ forall b, owns w k b -> w_heap w' !! b = w_heap w !! b).
  { intros w1 Ho Hal He. pose proof (step_safe E w o Hwf HI Hp Hs) as H. unfold wp in H.
    assert (Hv : view w1 k = view w k) by (destruct Ho as [Ho|Ho]; rewrite Ho in H; destruct H as [_ H]; apply H, Ht; by left).
    destruct (view_any w w1 k a Hv Ha) as [Ha1 Hbl].
    destruct (IH w1) as [H3 H4]; [by eapply reachable_outcome|done|done|done|intros; apply Ht; by right|]. split; [done|].
    intros b (a' & Ha' & Hb). rewrite Ha in Ha'. injection Ha' as <-. unfold block_of in Hbl. rewrite Hb in Hbl. rewrite <- Hbl. apply H4. by exists a. }
  destruct (run E o w) as [[] w1|w1| |] eqn:Hr1; try done; apply (H w1); try done; [by left|by right].
Qed.
