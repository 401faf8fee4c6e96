(** Witnesses against C25 and C59, and the special case used by C28. *)
From stdpp Require Import gmap list.
From Verif Require Import TypeListModel TypeListSpec TypeListProofs AnyModel AnyInv AnyHistory AnyExec AnyFacts AnyExamples DescModel
  PolyModel PolySpec PolyProofs PolyFacts PolyFacts2 PolyExamples.

Lemma obs_any i ms : methods_of obs_w i = Some ms -> exists a, w_any obs_w !! i = Some a /\ a_ms a = ms.
Proof. unfold methods_of. destruct (w_any obs_w !! i) as [a|]; [|done]. intros [= <-]. by exists a. Qed.

Lemma cmp_refuted :
  exists E O w i j a b, env_wf E /\ obs_wf O /\ reachable E w /\ w_any w !! i = Some a /\ w_any w !! j = Some b /\
  In MSpaceship (a_ms a) /\ a_ms a = a_ms b /\
  cmp_spaceship O (OpAny i) (OpAny j) w = UB UbNullVtable /\ eq_op O (OpAny i) (OpAny j) w = UB UbNullVtable.
Proof.
  destruct (obs_any 4 ords) as (a & Ha & Hma); [by vm_compute|]. destruct (obs_any 6 ords) as (b & Hb & Hmb); [by vm_compute|].
  exists obsE, obs0, obs_w, 4, 6, a, b. split; [apply mkE_wf|]. split; [apply obs0_wf|]. split; [apply obs_w_reachable|].
  split; [exact Ha|]. split; [exact Hb|]. rewrite Hma, Hmb. split; [right; right; left; reflexivity|]. split; [reflexivity|].
  split; vm_compute; reflexivity.
Qed.
Lemma cptr_refuted :
  exists E O w i a ms, env_wf E /\ reachable E w /\ w_any w !! i = Some a /\ contiguous ms (a_ms a) /\
  is_ok (ptr_any O i ms w) = true /\ cptr_any O i ms w = UB UbIllFormed.
Proof.
  destruct (obs_any 0 eqs) as (a & Ha & Hma); [by vm_compute|].
  exists obsE, obs0, obs_w, 0, a, [MTypeInfo]. split; [apply mkE_wf|]. split; [apply obs_w_reachable|]. split; [exact Ha|]. rewrite Hma.
  split; [exists 4, [MUser 0; MDestroy; MMove; MCopy true], [MEqualTo; MHash; MUser 1]; split; reflexivity|]. split; vm_compute; reflexivity.
Qed.
Lemma deref_fact :
  forall E O w i a n y T x, env_wf E -> reachable E w -> w_any w !! i = Some a -> content w i = Some (Some (T, x)) -> In (MUser n) (a_ms a) ->
  exists c, obtained O w (OAddr i) [Deref] c w /\
    match cur_invoke E c n y w with
    | Ok r w'' => snd (e_meth E T n x y) = Some r /\ content w'' i = Some (Some (T, fst (e_meth E T n x y))) /\
                  forall k, k <> i -> content w'' k = content w k
    | Exn w'' => snd (e_meth E T n x y) = None /\ content w'' i = Some (Some (T, fst (e_meth E T n x y))) /\
                  forall k, k <> i -> content w'' k = content w k
    | _ => False
    end.
Proof.
  intros E O w i a n y T x Hwf Hr Ha Hc Hn. pose proof (reachable_inv _ _ Hwf Hr) as HI.
  destruct (target_exists w i a E HI Ha) as ([[U q]|] & Hd & _ & _); [|by cbn in Hd; rewrite Hc in Hd].
  assert (U = T) as -> by (destruct Hd as (_ & z & Hz); congruence).
  destruct (dispatch_any_fact E O w i a [Deref] (VView KPtr (a_ms a)) (VView KRef (a_ms a)) (OAddr i) T q n y Hwf Hr Ha) as (c & w' & x' & Ho & Hc' & H).
  - by econstructor.
  - by left.
  - repeat econstructor.
  - split; [constructor|done].
  - done.
  - assert (x' = x) as -> by congruence. exists c.
    destruct (obtained_stands E O w (OAddr i) [Deref] _ _ _ c w' HI (ltac:(by econstructor)) (ltac:(repeat econstructor)) (ltac:(done)) (ltac:(split; [constructor|done])) Ho) as [Hx _].
    assert (w' = w) as ->; [|done]. destruct Hx as (m & -> & Hm & Hn').
    assert (m = w_sref w) as ->; [|by destruct w]. apply map_eq. intros r. destruct (m !! r) as [s|] eqn:Hs.
    + destruct (Hn' r (mk_is_Some _ _ Hs)) as [[s' Hs']|[]]. rewrite Hs'. rewrite <- Hs. by eapply lookup_weaken.
    + symmetry. by eapply lookup_weaken_None.
Qed.
