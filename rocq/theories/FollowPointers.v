(** Proofs: pointers and references to values on the heap keep working. *)
From stdpp Require Import gmap list.
From Verif Require Import TypeListModel TypeListSpec TypeListProofs AnyModel AnyInv AnySteps AnyOps AnyHistory AnyExec AnyFacts AnyFacts2 AnyCostSpec AnyCost
  PolyModel PolySpec PolyProofs PolyFacts FollowSpec FollowProofs.

Lemma srefs_stay E o w w' : (forall r, o <> ODropSref r) -> outcome E o w w' -> forall r s, w_sref w !! r = Some s -> w_sref w' !! r = Some s.
Proof.
  intros Hnd Ho r s Hs. destruct (c_run E o) as [H|[r' Hr']].
  - specialize (H w). destruct Ho as [Ho|Ho]; rewrite Ho in H; destruct H as (_ & _ & ->); done.
  - destruct (sref_made E o w w' r' Hr' Ho) as (_ & _ & _ & _ & H). destruct o; try done; [by apply H|]. by destruct (Hnd r0).
Qed.
Lemma exec_srefs E l : forall w w', (forall r, ~ In (ODropSref r) l) -> exec E l w = Ok tt w' -> forall r s, w_sref w !! r = Some s -> w_sref w' !! r = Some s.
Proof.
  induction l as [|o l IH]; intros w w' Hnd He r s Hs; cbn in He; [by injection He as <-|].
  assert (H1 : forall w1, outcome E o w w1 -> w_sref w1 !! r = Some s).
  { intros w1 Ho. eapply srefs_stay; try done. intros r' ->. by eapply Hnd, or_introl. }
  assert (H2 : forall q, ~ In (ODropSref q) l). { intros q Hq. by eapply Hnd, or_intror. }
  destruct (run E o w) as [[] w1|w1| |] eqn:Hrun; try done; eapply IH; try done; apply H1; [by left|by right].
Qed.
Lemma contained_content E w i x : Inv E w -> contained w i = Some x -> content w i = Some (Some (o_ty x, o_val x)).
Proof.
  intros HI Hc. rewrite (content_contained E w i HI), Hc. unfold contained in Hc. by destruct (w_any w !! i).
Qed.
Lemma begins_typed E w o s T q : Inv E w -> begins w o s (Some (T, q)) -> (forall i x, address w i = Some q -> contained w i = Some x -> o_ty x = T).
Proof.
  intros HI. assert (Hown : forall i j x, address w i = Some q -> contained w i = Some x -> address w j = Some q -> contained w j = Some x).
  { intros i j x Hi Hc Hj. unfold address, contained in *. destruct (w_any w !! i) as [a|]; [|done]. destruct (a_vt a); [|done].
    destruct (w_any w !! j) as [a'|]; [|done]. destruct (a_vt a'); [|done]. congruence. }
  assert (Hany : forall i j x, address w i = Some q -> contained w i = Some x -> any_target w j (Some (T, q)) -> o_ty x = T).
  { intros i j x Hi Hc (Hj & y & Hy). specialize (Hown i j x Hi Hc Hj). apply (contained_content E) in Hown; [|done]. congruence. }
  assert (Hobj : forall i x p, address w i = Some q -> contained w i = Some x -> obj_target w T p (Some (T, q)) -> o_ty x = T).
  { intros i x p Hi Hc. destruct p as [q'|]; cbn; [|done]. intros ([= <-] & y & Hy & Ht). unfold address, contained in *.
    destruct (w_any w !! i) as [a|]; [|done]. destruct (a_vt a); [|done]. congruence. }
  intros Hb i x Hi Hc. inversion Hb; subst; try (by eapply Hany).
  - destruct p as [q'|]; [|done]. destruct H as [[= <- <-] ?]. by eapply (Hobj i x (Some q)).
  - destruct H as [[= <- <-] ?]. by eapply (Hobj i x (Some q)).
Qed.
Lemma pointer_stands E O w w' i j b o l0 s k ms T c l : env_wf E -> reachable E w -> e_always_eq E = true \/ e_pocma E = true ->
  begins w o s (Some (T, PHeap b)) -> chain s l0 (VView k ms) -> all_names o l0 = [] -> obtained O w o l0 c w -> address w i = Some (PHeap b) ->
  allowed_alloc E l w -> exec E l w = Ok tt w' -> (forall r, ~ In (ODropSref r) l) -> follow l i = Some j ->
  Inv E w' /\ stands w' c (VView k ms) (Some (T, PHeap b)) /\ address w' j = Some (PHeap b) /\ exists x, contained w' j = Some x /\ o_ty x = T /\ content w' j = Some (Some (T, o_val x)).
Proof.
  intros Hwf Hr Hmv Hb Hch Hnn Hob Had Ha He Hnd Hf. pose proof (reachable_inv _ _ Hwf Hr) as HI.
  destruct (follow_kept E l w w' i j b Hwf Hr Hmv Ha He Hf Had) as [(A' & x & x' & Hx & Hx' & _ & Hty) _].
  pose proof (begins_typed E _ _ _ _ _ HI Hb i x Had Hx) as HT.
  destruct (obtained_stands E O w o l0 s (VView k ms) (Some (T, PHeap b)) c w HI Hb Hch) as [_ Hst]; [done|rewrite Hnn; split; [constructor|done]|done|].
  assert (Hr' : reachable E w') by (by eapply exec_reachable). pose proof (reachable_inv _ _ Hwf Hr') as HI'.
  split; [done|]. split; [|split; [done|]].
  { destruct c as [p|]; [|done]. destruct Hst as (H1 & H2 & H3 & v & Hv & Hal & Hent). split; [done|]. split; [done|]. split; [done|].
    exists v. split; [done|]. split; [|done]. unfold vt_alive in *. destruct (vp_home v) as [r|]; [|done].
    destruct Hal as [sr Hsr]. exists sr. by eapply exec_srefs. }
  exists x'. split; [done|]. split; [congruence|]. rewrite (contained_content E w' j x' HI' Hx'). congruence.
Qed.
Lemma pointer_calls E O w w' i j b o l0 s k ms T c l n y : env_wf E -> reachable E w -> e_always_eq E = true \/ e_pocma E = true ->
  begins w o s (Some (T, PHeap b)) -> chain s l0 (VView k ms) -> all_names o l0 = [] -> obtained O w o l0 c w -> address w i = Some (PHeap b) ->
  allowed_alloc E l w -> exec E l w = Ok tt w' -> (forall r, ~ In (ODropSref r) l) -> follow l i = Some j -> In (MUser n) ms ->
  exists x w'', contained w' j = Some x /\ o_ty x = T /\
    cur_invoke E c n y w' = (match snd (e_meth E T n (o_val x) y) with Some r => Ok r w'' | None => Exn w'' end) /\
    obj_at w'' (PHeap b) = Some (Obj T (fst (e_meth E T n (o_val x) y)) (o_id x)) /\ forall p, p <> PHeap b -> obj_at w'' p = obj_at w' p.
Proof.
  intros Hwf Hr Hmv Hb Hch Hnn Hob Had Ha He Hnd Hf Hn.
  destruct (pointer_stands E O w w' i j b o l0 s k ms T c l) as (HI & Hst & A' & x & Hx & <- & Hc); try done.
  assert (Hobj : obj_at w' (PHeap b) = Some x).
  { unfold contained, address in Hx, A'. destruct (w_any w' !! j) as [a|]; [|done]. destruct (a_vt a); [|done]. congruence. }
  destruct x as [T x id]. destruct (stands_invoke E w' c _ T (PHeap b) n y x id Hst Hn Hobj) as (w'' & H1 & H2 & H3).
  by exists (Obj T x id), w''.
Qed.
Lemma pointer_is_any E O w w' i j b o l0 s k ms T c l n y a' : env_wf E -> reachable E w -> e_always_eq E = true \/ e_pocma E = true ->
  begins w o s (Some (T, PHeap b)) -> chain s l0 (VView k ms) -> all_names o l0 = [] -> obtained O w o l0 c w -> address w i = Some (PHeap b) ->
  allowed_alloc E l w -> exec E l w = Ok tt w' -> (forall r, ~ In (ODropSref r) l) -> follow l i = Some j ->
  w_any w' !! j = Some a' -> In (MUser n) ms -> In (MUser n) (a_ms a') -> cur_invoke E c n y w' = invoke E j n y w'.
Proof.
  intros Hwf Hr Hmv Hb Hch Hnn Hob Had Ha He Hnd Hf Haj Hn Hn'.
  destruct (pointer_stands E O w w' i j b o l0 s k ms T c l) as (HI & Hst & A' & x & Hx & <- & Hc); try done.
  by eapply (stands_invoke_any E w' c _ (o_ty x) (PHeap b) n y j a' (o_val x)).
Qed.
