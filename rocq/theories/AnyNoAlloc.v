(** Programs whose values fit in the buffer use the allocator for nothing. *)
From stdpp Require Import gmap list.
From Verif Require Import TypeListModel AnyModel AnyInv AnyHistory AnyExec AnyFacts AnyNoAllocSpec.

Section NoAlloc.
  Context (E : env) (X : Prop).   (* [X]: exceptions of the stored types are possible *)

  Definition good (T : nat) : Prop := fits E T = true /\ (X \/ ty_tcopy (e_ty E T) || ty_ntcopy (e_ty E T) = true).
  Definition goodtab (l : list slot) : Prop := Forall (fun s => good (fst s)) l.
  Definition goodvt (v : option vptr) : Prop := forall x, v = Some x -> goodtab (vp_tab x).
  Definition anyok (i : nat) (a : any) : Prop :=
    a_vp a = PData i /\ (forall n, a_un a <> USize n) /\ goodvt (a_vt a).
  Definition silent (e : event) : Prop := match e with EvAlloc _ _ _ | EvFree _ _ _ => False | _ => True end.

  Record NH (w : world) : Prop := {
    nh_heap : w_heap w = ∅;
    nh_log : Forall silent (w_log w);
    nh_any : forall i a, w_any w !! i = Some a -> anyok i a;
    nh_sref : forall r s, w_sref w !! r = Some s -> goodtab (sr_tab s)
  }.

  Definition tr {A} (m : M A) (Q : A -> Prop) : Prop := forall w, NH w ->
    match m w with Ok a w' => NH w' /\ Q a | Exn w' => X /\ NH w' | _ => True end.

  Lemma tr_ret {A} (a : A) (Q : A -> Prop) : Q a -> tr (retM a) Q.
  Proof. intros H w Hw. done. Qed.
  Lemma tr_ub {A} r (Q : A -> Prop) : tr (ubM r) Q.
  Proof. intros w Hw. done. Qed.
  Lemma tr_throw {A} (Q : A -> Prop) : X -> tr (@throwM A) Q.
  Proof. intros H w Hw. done. Qed.
  Lemma tr_bind {A B} (m : M A) (f : A -> M B) Q R : tr m Q -> (forall a, Q a -> tr (f a) R) -> tr (bindM m f) R.
  Proof.
    intros Hm Hf w Hw. unfold bindM. specialize (Hm w Hw). destruct (m w) as [a w'|w'| |]; try done.
    destruct Hm as [Hw' Ha]. by apply Hf.
  Qed.
  Lemma tr_mono {A} (m : M A) (Q R : A -> Prop) : tr m Q -> (forall a, Q a -> R a) -> tr m R.
  Proof.
    intros Hm H w Hw. specialize (Hm w Hw). destruct (m w) as [a w'|w'| |]; try done. destruct Hm. by split; [|apply H].
  Qed.
  Lemma tr_noexcept {A} b (m : M A) Q : tr m Q -> tr (noexcept_if b m) Q.
  Proof. intros Hm w Hw. unfold noexcept_if. specialize (Hm w Hw). destruct (m w) as [a w'|w'| |]; try done. by destruct b. Qed.
  Lemma tr_on_exn {A} (m : M A) h Q : tr m Q -> tr h (fun _ => True) -> tr (on_exn m h) Q.
  Proof.
    intros Hm Hh w Hw. unfold on_exn. specialize (Hm w Hw). destruct (m w) as [a w'|w'| |]; try done.
    destruct Hm as [HX Hw']. specialize (Hh w' Hw'). destruct (h w') as [? w''|?| |]; try done. by destruct Hh.
  Qed.
  Lemma tr_ensure b r : tr (ensure b r) (fun _ => b = true).
  Proof. destruct b; [by apply tr_ret|apply tr_ub]. Qed.

  Lemma nh_tick w n : NH w -> NH (set_tick w n).
  Proof. by intros []. Qed.
  Lemma nh_next w n : NH w -> NH (set_next w n).
  Proof. by intros []. Qed.

  Lemma tr_ask : tr (ask E) (fun _ => True).
  Proof. intros w Hw. by split; [apply nh_tick|]. Qed.
  Lemma tr_fresh : tr fresh (fun _ => True).
  Proof. intros w Hw. by split; [apply nh_next|]. Qed.
  Lemma tr_emit e : silent e -> tr (emit e) (fun _ => True).
  Proof. intros He w [H1 H2 H3 H4]. split; [|done]. split; cbn; try done. by constructor. Qed.
  Lemma tr_get i : tr (get_any i) (anyok i).
  Proof. intros w Hw. unfold get_any. destruct (w_any w !! i) as [a|] eqn:Ha; [|done]. split; [done|]. by eapply nh_any. Qed.
  Lemma nh_put w i a : NH w -> anyok i a -> NH (set_any w (<[i := a]> (w_any w))).
  Proof.
    intros [H1 H2 H3 H4] Ha. split; cbn; try done. intros k b. destruct (decide (i = k)) as [<-|].
    - rewrite lookup_insert. by intros [= <-].
    - rewrite lookup_insert_ne by done. apply H3.
  Qed.
  Lemma tr_put i a : anyok i a -> tr (put_any i a) (fun _ => True).
  Proof. intros Ha w Hw. unfold put_any. destruct (w_any w !! i); [|done]. split; [|done]. by apply nh_put. Qed.
  Lemma tr_block b : tr (get_block b) (fun _ => False).
  Proof. intros w Hw. unfold get_block. by rewrite (nh_heap _ Hw), lookup_empty. Qed.

  Ltac bind H := eapply tr_bind; [apply H|].

  Lemma tr_set_vt i v : goodvt v -> tr (set_vt i v) (fun _ => True).
  Proof. intros Hv. bind tr_get. intros a (H1 & H2 & H3). by apply tr_put. Qed.
  Lemma tr_set_vp i : tr (set_vp i (PData i)) (fun _ => True).
  Proof. bind tr_get. intros a (H1 & H2 & H3). by apply tr_put. Qed.
  Lemma tr_set_alloc i al : tr (set_alloc i al) (fun _ => True).
  Proof. bind tr_get. intros a (H1 & H2 & H3). by apply tr_put. Qed.
  Lemma tr_get_size i : tr (get_size i) (fun _ => False).
  Proof. bind tr_get. intros a (H1 & H2 & H3). destruct (a_un a) as [|n|o]; try apply tr_ub. by destruct (H2 n). Qed.
  Lemma tr_read_obj p : tr (read_obj p) (fun _ => True).
  Proof.
    destruct p as [i|b]; cbn.
    - bind tr_get. intros a _. destruct (a_un a); try apply tr_ub. by apply tr_ret.
    - bind tr_block. done.
  Qed.
  Lemma tr_read_as T p : tr (read_as T p) (fun _ => True).
  Proof. bind tr_read_obj. intros o _. bind tr_ensure. intros _ _. by apply tr_ret. Qed.
  Lemma tr_write p o : tr (write_place p o) (fun _ => True).
  Proof.
    destruct p as [i|b]; cbn.
    - bind tr_get. intros a (H1 & H2 & H3). apply tr_put. split; [done|]. split; [|done]. by destruct o.
    - bind tr_block. done.
  Qed.
  Lemma tr_check T p : tr (check_place E T p) (fun _ => True).
  Proof.
    bind tr_ensure. intros _ _. destruct p as [i|b].
    - bind tr_get. intros a _. bind tr_ensure. intros _ _. eapply tr_mono; [apply tr_ensure|done].
    - bind tr_block. done.
  Qed.
  Lemma tr_read_src T s : tr (read_src T s) (fun _ => True).
  Proof. destruct s; cbn; [by apply tr_ret|]. bind tr_read_as. intros o _. by apply tr_ret. Qed.
  Lemma tr_construct T p s nt : X \/ nt = true -> tr (construct E T p s nt) (fun _ => True).
  Proof.
    intros Hnt. bind tr_check. intros _ _. bind tr_read_src. intros v _.
    apply (tr_bind _ _ (fun thr => thr = true -> X)).
    { destruct nt; [by apply tr_ret|]. destruct Hnt; [|done]. eapply tr_mono; [apply tr_ask|done]. }
    intros [] Hthr.
    - bind tr_write. intros _ _. apply tr_throw. by apply Hthr.
    - bind tr_fresh. intros id _. bind tr_write. intros _ _. destruct (ty_tdestr _); [by apply tr_ret|by apply tr_emit].
  Qed.
  Lemma tr_destroy_at T p : tr (destroy_at E T p) (fun _ => True).
  Proof. bind tr_read_as. intros o _. bind tr_write. intros _ _. destruct (ty_tdestr _); [by apply tr_ret|by apply tr_emit]. Qed.
  Lemma tr_memcpy T s d : tr (memcpy E T s d) (fun _ => True).
  Proof. bind tr_check. intros _ _. bind tr_read_as. intros o _. bind tr_fresh. intros id _. apply tr_write. Qed.

  Lemma tr_vt_read ms v m : goodtab (vp_tab v) -> tr (vt_read ms v m) good.
  Proof.
    intros Hv w Hw. unfold vt_read. destruct (match vp_home v with None => true | Some r => _ end); [|done].
    destruct (number_of_first meqb m ms) as [k|]; [|done].
    destruct (nth_error (vp_tab v) (vp_off v + k)) as [[T m']|] eqn:Hn; [|done].
    destruct (meqb m m'); [|done]. split; [done|]. apply nth_error_In in Hn.
    apply (proj1 (List.Forall_forall _ _) Hv (T, m') Hn).
  Qed.
  Lemma tr_subtable to from v : goodtab (vp_tab v) -> tr (subtableM to from v) (fun v' => goodtab (vp_tab v')).
  Proof.
    intros Hv. unfold subtableM, subtable. destruct (list_same meqb to from); [by apply tr_ret|].
    destruct (find_subsequence meqb to from) as [[n|]|]; try apply tr_ub. by apply tr_ret.
  Qed.
  Lemma tr_any_slot i m : tr (any_slot i m) good.
  Proof.
    bind tr_get. intros a (H1 & H2 & H3). destruct (a_vt a) as [v|] eqn:Hv; [|apply tr_ub]. by apply tr_vt_read, H3.
  Qed.
  Lemma tr_relocate T s d : good T -> tr (relocate E T s d) (fun _ => True).
  Proof.
    intros [HT _]. unfold relocate. destruct (_ && _); [apply tr_memcpy|]. apply tr_noexcept.
    eapply tr_bind; [apply tr_construct|intros _ _; apply tr_destroy_at]. right.
    unfold fits in HT. by destruct (_ <=? _), (ty_ntmove _).
  Qed.
  Lemma tr_copy T al s d : good T -> tr (copy_fn E T al s d) (fun p => p = d).
  Proof.
    intros [HT HX]. unfold copy_fn. rewrite HT. destruct (ty_tcopy _) eqn:Htc.
    - bind tr_memcpy. intros _ _. by apply tr_ret.
    - eapply tr_bind; [apply tr_construct|intros _ _; by apply tr_ret]. by destruct HX; [left|right].
  Qed.
  Lemma tr_get_move i : tr (get_move_fn i) good.
  Proof.
    bind tr_get. intros a _. destruct (contains_v _ _ _); [apply tr_any_slot|].
    destruct (some_copy_method _); [apply tr_any_slot|apply tr_ub].
  Qed.
  Lemma mem_allocated_no i a : anyok i a -> mem_allocated i a = false.
  Proof. intros (H & _). unfold mem_allocated. by rewrite H, bool_decide_true. Qed.
  Lemma goodvt_none : goodvt None.
  Proof. done. Qed.
  Lemma goodvt_for T ms : good T -> goodvt (Some (addr_vtable_for T ms)).
  Proof.
    intros HT x [= <-]. cbn. unfold goodtab. apply List.Forall_forall. intros s Hs. apply in_map_iff in Hs as (m & <- & _). done.
  Qed.
  Lemma tr_construct_value i T s nt : good T -> X \/ nt = true -> tr (construct_value E i T s nt) (fun _ => True).
  Proof.
    intros HT Hnt. apply tr_noexcept. bind tr_get. intros a Ha. eapply tr_bind; [by apply tr_construct|].
    intros _ _. by apply tr_set_vt, goodvt_for.
  Qed.
  Lemma tr_emplace_in_empty i T s nt : good T -> X \/ nt = true -> tr (emplace_in_empty E i T false s nt) (fun _ => True).
  Proof. intros HT Hnt. unfold emplace_in_empty. rewrite (proj1 HT). by apply tr_construct_value. Qed.
  Lemma tr_destroy_value i : tr (destroy_value E i) (fun _ => True).
  Proof.
    apply tr_noexcept. bind tr_get. intros a Ha. destruct (has_val a); [|by apply tr_ret].
    bind tr_any_slot. intros T HT. apply (tr_bind _ _ (fun _ => True)).
    - unfold call_destroy. destruct (ty_tdestr _); [by apply tr_ret|apply tr_destroy_at].
    - intros _ _. by apply tr_set_vt.
  Qed.
  Lemma tr_dealloc_mem i : tr (deallocate_memory E i) (fun _ => True).
  Proof.
    apply tr_noexcept. bind tr_get. intros a Ha. rewrite (mem_allocated_no _ _ Ha), andb_false_r. bind tr_ensure. done.
  Qed.
  Lemma tr_reset i : tr (reset E i) (fun _ => True).
  Proof.
    apply tr_noexcept. bind tr_destroy_value. intros _ _. bind tr_get. intros a Ha.
    rewrite (mem_allocated_no _ _ Ha). by apply tr_ret.
  Qed.
  Lemma tr_replace i n : n <= e_soos E -> tr (replace_with_bytes E i n) (fun _ => True).
  Proof.
    intros Hn. bind tr_destroy_value. intros _ _. apply (tr_bind _ _ (fun c => c = e_soos E)).
    - bind tr_get. intros a Ha. rewrite (mem_allocated_no _ _ Ha). by apply tr_ret.
    - intros c ->. rewrite (proj2 (Nat.leb_le _ _)) by done. by apply tr_ret.
  Qed.
  Lemma tr_emplace i T s nt : good T -> X \/ nt = true -> tr (emplace E i T s nt) (fun _ => True).
  Proof.
    intros HT Hnt. apply tr_noexcept. bind tr_destroy_value. intros _ _. bind tr_get. intros a Ha.
    rewrite (mem_allocated_no _ _ Ha). by apply tr_emplace_in_empty.
  Qed.

  (** taking over the memory of [j] reads `size_allocated`, which no any of such a program ever wrote *)
  Lemma steal_stuck {A} i j (k : nat -> M A) Q :
    tr (let! o := get_any j in set_vp j (PData j) ;;; set_vp i (a_vp o) ;;; let! n := get_size j in k n) Q.
  Proof.
    intros w Hw. unfold set_vp, get_size, bindM, get_any, put_any.
    destruct (w_any w !! j) as [o|] eqn:Hj; [|done]. cbn.
    destruct (nh_any _ Hw _ _ Hj) as (_ & Hs & _).
    repeat (first [rewrite Hj | rewrite lookup_insert]; cbn). destruct (decide (i = j)) as [<-|Hij].
    - repeat (rewrite lookup_insert; cbn). destruct (a_un o) as [|n|]; try done. by destruct (Hs n).
    - repeat (rewrite lookup_insert_ne by done; cbn). destruct (w_any w !! i) as [a|] eqn:Hi; [|done]. cbn.
      repeat (first [rewrite lookup_insert_ne by done | rewrite Hi | rewrite lookup_insert]; cbn).
      destruct (a_un o) as [|n|]; try done. by destruct (Hs n).
  Qed.

  Lemma tr_move reuse i j : tr (move_value_from E reuse i j) (fun _ => True).
  Proof.
    apply tr_noexcept. bind tr_get. intros a Ha. bind tr_ensure. intros _ _. bind tr_get. intros o Ho.
    destruct (has_val o); [|by apply tr_ret]. cbv zeta. cbn [negb].
    apply (tr_bind _ _ (fun _ => True)).
    - destruct (e_soos E =? 0); [apply steal_stuck|]. rewrite (mem_allocated_no _ _ Ho). cbn [negb].
      bind tr_get_move. intros T HT. bind tr_get. intros a' _. by apply tr_relocate.
    - intros _ _. bind tr_get. intros o' (_ & _ & Hvt). destruct (a_vt o') as [v|]; [|apply tr_ub].
      eapply tr_bind; [by apply tr_subtable, Hvt|]. cbn. intros v' Hv'. eapply tr_bind; [apply tr_set_vt; by intros ? [= <-]|].
      intros _ _. by apply tr_set_vt.
  Qed.

  Lemma tr_new_any i al ms : tr (new_any i al ms) (fun _ => True).
  Proof. intros w Hw. unfold new_any. destruct (w_any w !! i); [done|]. split; [|done]. by apply nh_put. Qed.
  Lemma tr_drop_any i : tr (drop_any E i) (fun _ => True).
  Proof.
    bind tr_get. intros a _. bind tr_ensure. intros _ _ w [H1 H2 H3 H4]. split; [|done]. split; cbn; try done.
    intros k b Hk. apply lookup_delete_Some in Hk as [_ Hk]. by apply H3.
  Qed.
  Lemma tr_ctor i al ms body : tr body (fun _ => True) -> tr (ctor E i al ms body) (fun _ => True).
  Proof. intros Hb. bind tr_new_any. intros _ _. apply tr_on_exn; [done|apply tr_drop_any]. Qed.
  Lemma tr_dtor i : tr (dtor E i) (fun _ => True).
  Proof. bind tr_reset. intros _ _. apply tr_drop_any. Qed.
  Lemma tr_copy_body i j : tr (copy_body E i j) (fun _ => True).
  Proof.
    bind tr_get. intros o (_ & _ & Hvt). destruct (has_val o); [|by apply tr_ret]. cbn [negb].
    bind tr_any_slot. intros T HT. bind tr_get. intros a (Ha & _). eapply tr_bind; [by apply tr_copy|]. cbn. intros p ->.
    rewrite Ha. bind tr_set_vp. intros _ _. destruct (a_vt o) as [v|]; [|apply tr_ub].
    eapply tr_bind; [by apply tr_subtable, Hvt|]. cbn. intros v' Hv'. apply tr_set_vt. by intros ? [= <-].
  Qed.
  Lemma tr_copy_ctor i j ms : tr (copy_ctor E i j ms) (fun _ => True).
  Proof. bind tr_get. intros o _. apply tr_ctor, tr_copy_body. Qed.
  Lemma tr_move_ctor i j : tr (move_ctor E i j) (fun _ => True).
  Proof. bind tr_get. intros o _. apply tr_noexcept, tr_ctor, tr_move. Qed.
  Lemma tr_move_assign i j : tr (move_assign E i j) (fun _ => True).
  Proof.
    apply tr_noexcept. destruct (i =? j); [by apply tr_ret|]. destruct (e_always_eq E).
    { bind tr_reset. intros _ _. apply tr_move. }
    destruct (e_pocma E).
    - bind tr_reset. intros _ _. bind tr_get. intros a _. bind tr_get. intros o _. apply (tr_bind _ _ (fun _ => True)).
      + destruct (negb _); [apply tr_set_alloc|by apply tr_ret].
      + intros _ _. apply tr_move.
    - bind tr_destroy_value. intros _ _. bind tr_get. intros a Ha. bind tr_get. intros o Ho. destruct (negb _).
      + rewrite (mem_allocated_no _ _ Ha), andb_false_r. apply (tr_bind _ _ (fun b => b = false)); [by apply tr_ret|].
        intros ? ->. apply (tr_bind _ _ (fun _ => True)); [by apply tr_ret|]. intros _ _. apply tr_move.
      + bind tr_reset. intros _ _. apply tr_move.
  Qed.
  Lemma tr_copy_assign i j t : tr (copy_assign E i j t) (fun _ => True).
  Proof.
    bind tr_get. intros o _. bind tr_copy_ctor. intros _ _. apply (tr_bind _ _ (fun _ => True)).
    - apply tr_on_exn; [|apply tr_dtor]. apply (tr_bind _ _ (fun _ => True)).
      + destruct (_ && _); [|by apply tr_ret]. bind tr_get. intros a _. bind tr_get. intros o' _.
        destruct (negb _); [|by apply tr_ret]. bind tr_reset. intros _ _. apply tr_set_alloc.
      + intros _ _. apply tr_move_assign.
    - intros _ _. apply tr_dtor.
  Qed.
  Lemma tr_swap i j t : tr (swap_any E i j t) (fun _ => True).
  Proof.
    bind tr_move_ctor. intros _ _. apply (tr_bind _ _ (fun _ => True)); [|intros _ _; apply tr_dtor].
    apply tr_on_exn; [|apply tr_dtor]. bind tr_move_assign. intros _ _. apply tr_move_assign.
  Qed.
  Lemma tr_invoke i n x : X -> tr (invoke E i n x) (fun _ => True).
  Proof.
    intros HX. bind tr_any_slot. intros T HT. bind tr_get. intros a _. bind tr_read_as. intros o _. cbv zeta.
    bind tr_write. intros _ _. destruct (snd _); [by apply tr_ret|by apply tr_throw].
  Qed.
  Lemma tr_pick from v ms : goodtab (vp_tab v) -> tr (pick_slots from v ms) goodtab.
  Proof.
    intros Hv. induction ms as [|m tl IH]; cbn [pick_slots]; [by apply tr_ret, List.Forall_nil|].
    eapply tr_bind; [by apply tr_vt_read|]. intros T HT. eapply tr_bind; [exact IH|]. intros r Hr. apply tr_ret.
    by apply List.Forall_cons.
  Qed.
  Lemma tr_new_sref r j ms : tr (new_sref r j ms) (fun _ => True).
  Proof.
    bind tr_get. intros o (_ & _ & Hvt). destruct (a_vt o) as [v|]; [|apply tr_ub].
    eapply tr_bind; [by apply tr_pick, Hvt|]. cbn. intros tab Ht w [H1 H2 H3 H4]. destruct (w_sref w !! r); [done|].
    split; [|done]. split; cbn; try done. intros k s. destruct (decide (r = k)) as [<-|].
    - rewrite lookup_insert. by intros [= <-].
    - rewrite lookup_insert_ne by done. apply H4.
  Qed.
  Lemma tr_drop_sref r : tr (drop_sref r) (fun _ => True).
  Proof.
    intros w [H1 H2 H3 H4]. split; [|done]. split; cbn; try done. intros k s Hk. apply lookup_delete_Some in Hk as [_ Hk]. by eapply H4.
  Qed.
  Lemma tr_make_ref x : tr (make_ref x) (fun r => goodtab (vp_tab (pr_vt r))).
  Proof.
    destruct x as [j ms|r]; cbn [make_ref].
    - bind tr_get. intros o (_ & _ & Hvt). destruct (a_vt o) as [v|]; [|apply tr_ub].
      eapply tr_bind; [by apply tr_subtable, Hvt|]. cbn. intros v' Hv'. by apply tr_ret.
    - intros w Hw. destruct (w_sref w !! r) as [s|] eqn:Hs; [|done]. split; [done|]. by eapply nh_sref.
  Qed.
  Lemma tr_materialize i al x : tr (materialize E i al x) (fun _ => True).
  Proof.
    unfold materialize. destruct (e_copy_req_alloc E); [apply tr_ub|]. bind tr_make_ref. cbn. intros r Hr.
    bind tr_new_any. intros _ _. eapply tr_bind; [apply tr_set_vt; by intros ? [= <-]|]. intros _ _.
    apply tr_on_exn; [|apply tr_dtor]. eapply tr_bind; [by apply tr_vt_read|]. intros T HT. bind tr_get. intros a (Ha & _).
    eapply tr_bind; [by apply tr_copy|]. cbn. intros p ->. rewrite Ha. apply tr_set_vp.
  Qed.
  Lemma tr_eval_arg s : tr (eval_arg s) (fun _ => True).
  Proof. destruct s; cbn; [by apply tr_ret|]. bind tr_get. intros a _. by apply tr_ret. Qed.

  Lemma small_good T : small E T -> (X \/ ty_tcopy (e_ty E T) || ty_ntcopy (e_ty E T) = true) -> good T.
  Proof.
    intros (H1 & H2 & H3) HX. split; [|done]. unfold fits. rewrite H3, !(proj2 (Nat.leb_le _ _)) by done. done.
  Qed.

  Lemma tr_run o : small_op E o -> X \/ quiet_op E o -> tr (run E o) (fun _ => True).
  Proof.
    intros Hs Hq. destruct o; cbn in Hs, Hq |- *.
    - apply tr_new_any.
    - bind tr_eval_arg. intros y _. apply tr_noexcept, tr_ctor, tr_emplace_in_empty.
      + apply small_good; [done|]. destruct Hq as [?|(_ & [H|H])]; [by left|right..]; rewrite H; [done|apply orb_true_r].
      + by destruct Hq as [?|[? _]]; [left|right].
    - done.
    - apply tr_copy_ctor.
    - apply tr_move_ctor.
    - apply tr_noexcept, tr_ctor, tr_move.
    - apply tr_move_assign.
    - apply tr_copy_assign.
    - apply tr_swap.
    - bind tr_eval_arg. intros y _. apply tr_emplace.
      + apply small_good; [done|]. destruct Hq as [?|(_ & [H|H])]; [by left|right..]; rewrite H; [done|apply orb_true_r].
      + by destruct Hq as [?|[? _]]; [left|right].
    - apply tr_reset.
    - apply tr_destroy_value.
    - by apply tr_replace.
    - destruct Hq as [HX|[]]. eapply tr_bind; [by apply tr_invoke|]. intros _ _. by apply tr_ret.
    - apply tr_dtor.
    - apply tr_new_sref.
    - apply tr_drop_sref.
    - apply tr_materialize.
  Qed.

  Lemma nh_init : NH init_world.
  Proof. split; cbn; try done. Qed.

  Lemma nh_exec l w w' : Forall (small_op E) l -> X \/ Forall (quiet_op E) l -> NH w -> exec E l w = Ok tt w' -> NH w'.
  Proof.
    intros Hs Hq. revert w. induction l as [|o tl IH]; intros w Hw; cbn.
    - by intros [= <-].
    - apply List.Forall_cons_iff in Hs as [Ho Htl].
      assert (X \/ quiet_op E o) as Hqo by (destruct Hq as [?|Hq]; [by left|right; by apply List.Forall_cons_iff in Hq as [? _]]).
      assert (X \/ Forall (quiet_op E) tl) as Hqt by (destruct Hq as [?|Hq]; [by left|right; by apply List.Forall_cons_iff in Hq as [_ ?]]).
      pose proof (tr_run o Ho Hqo w Hw) as Hr. destruct (run E o w) as [[] w1|w1| |]; try done.
      + apply IH; try done. by destruct Hr.
      + apply IH; try done. by destruct Hr.
  Qed.
End NoAlloc.

Lemma no_alloc E l w : Forall (small_op E) l -> exec E l init_world = Ok tt w -> ~ touched_allocator (w_log w).
Proof.
  intros Hs He. pose proof (nh_exec E True l init_world w Hs (or_introl I) (nh_init E True) He) as [_ Hl _ _].
  rewrite List.Forall_forall in Hl. intros (b & al & n & [H|H]); by apply Hl in H.
Qed.

Lemma all_in_buffer E l w : Forall (small_op E) l -> exec E l init_world = Ok tt w ->
  w_heap w = ∅ /\ forall i a, w_any w !! i = Some a -> a_vp a = PData i.
Proof.
  intros Hs He. pose proof (nh_exec E True l init_world w Hs (or_introl I) (nh_init E True) He) as [Hh _ Ha _].
  split; [done|]. intros i a Hi. by destruct (Ha i a Hi).
Qed.

Lemma never_throws E l o w w' : Forall (small_op E) (o :: l) -> Forall (quiet_op E) (o :: l) ->
  exec E l init_world = Ok tt w -> run E o w <> Exn w'.
Proof.
  intros Hs Hq He Hr. apply List.Forall_cons_iff in Hs as [Hs1 Hs2]. apply List.Forall_cons_iff in Hq as [Hq1 Hq2].
  pose proof (nh_exec E False l init_world w Hs2 (or_intror Hq2) (nh_init E False) He) as Hw.
  pose proof (tr_run E False o Hs1 (or_intror Hq1) w Hw) as H. rewrite Hr in H. by destruct H.
Qed.

Lemma exec_no_exn E l w w' : exec E l w <> Exn w'.
Proof. revert w. induction l as [|o tl IH]; intros w; cbn; [done|]. by destruct (run E o w). Qed.

Lemma runs_to_the_end E l : env_wf E -> e_always_eq E = true -> allowed E l init_world -> Forall (small_op E) l ->
  exists w, exec E l init_world = Ok tt w.
Proof.
  intros Hwf He Ha Hs. destruct (exec E l init_world) as [[] w|w|r|] eqn:Hx; [by exists w|by destruct (exec_no_exn E l init_world w)| |].
  - by destruct (memory_safe E l r Hwf He Ha).
  - destruct (terminates_only_force E l Hwf He Ha Hx) as (i & ms & T & s & Hin & _).
    rewrite List.Forall_forall in Hs. by apply Hs in Hin.
Qed.
