(** Proofs: std::hash of pointer variables. *)
From stdpp Require Import gmap list.
From Verif Require Import AnyModel AnyInv AnyHistory AnyFacts DescModel PolyModel PolySpec RebindModel RebindSpec RebindProofs.

Lemma pointer_variable E O w0 l G s x k ms d f : env_wf E -> reachable E w0 -> program w0 l G -> run_stmts O l (PState w0 ∅) = POk s ->
  G !! x = Some (VInfo (VView k ms) d f) -> is_ptr k = true -> exists p, read_var s x = Some (CView p) /\ pointer_to (ps_w s) p k ms d.
Proof.
  intros HE Hr Hp Hrun Hx Hk. destruct (pointer_variables E O w0 l G HE Hr Hp) as (s' & Hs & _ & H). rewrite Hrun in Hs. injection Hs as <-. by eapply H.
Qed.
Lemma program_hash E O w0 l G s x y mx my d fx fy :
  env_wf E -> reachable E w0 -> program w0 l G -> run_stmts O l (PState w0 ∅) = POk s ->
  G !! x = Some (VInfo (VView KPtr mx) d fx) -> G !! y = Some (VInfo (VView KPtr my) d fy) ->
  exists p q h, read_var s x = Some (CView p) /\ read_var s y = Some (CView q) /\ hash_ptr O p = Some h /\ hash_ptr O q = Some h.
Proof.
  intros HE Hr Hp Hrun Hx Hy. destruct (pointer_variable E O w0 l G s x _ _ _ _ HE Hr Hp Hrun Hx eq_refl) as (p & Hxp & Kp & _ & Rp & _).
  destruct (pointer_variable E O w0 l G s y _ _ _ _ HE Hr Hp Hrun Hy eq_refl) as (q & Hyq & Kq & _ & Rq & _).
  exists p, q. eexists. split; [done|]. split; [done|]. unfold hash_ptr, raw in *. rewrite Kp, Kq, Rp, Rq. done.
Qed.
Lemma program_const_hash E O w0 l G s x ms d f :
  env_wf E -> reachable E w0 -> program w0 l G -> run_stmts O l (PState w0 ∅) = POk s -> G !! x = Some (VInfo (VView KCPtr ms) d f) ->
  exists p, read_var s x = Some (CView p) /\ hash_ptr O p = None.
Proof.
  intros HE Hr Hp Hrun Hx. destruct (pointer_variable E O w0 l G s x _ _ _ _ HE Hr Hp Hrun Hx eq_refl) as (p & Hxp & Kp & _).
  exists p. split; [done|]. unfold hash_ptr. by rewrite Kp.
Qed.
