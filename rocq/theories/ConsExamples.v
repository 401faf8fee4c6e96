(** Examples for ConsModel: types and interfaces of a small program, and the calls at which the code departs from ConsSpec. *)
From stdpp Require Import list.
From Verif Require Import TypeListModel TypeListSpec ConsModel ConsSpec ConsResolve ConsProofs.

(** TObj 0 has everything, TObj 1 cannot be copied, TObj 2 is made from a list; only TObj 0 and TObj 2 have method 7 *)
Definition ex_env : env := Env
  (fun t => match t with TObj 1 => false | _ => true end)
  (fun _ => true) (fun _ => true)
  (fun n t => match n, t with 7, (TObj 0 | TObj 2) => true | _, _ => false end)
  (fun t xs => match t, xs with
               | TObj 2, AExpr (TIList _) _ _ :: _ => true
               | TObj 0, [] => true
               | TObj 0, [AExpr (TObj 5) _ _; AExpr (TObj 5) _ _] => true
               | TObj 1, [AExpr (TObj 1) _ lv] => negb lv
               | t, [AExpr t' _ _] => bool_decide (t = t')
               | _, _ => false
               end).
(** any_with<copy>, any_with<move, method 7>, any_with<move, method 7, copy>, any_with<method 7> *)
Definition any_copy : anyty := AnyT 0 64 [MCopy 0 64; MDestroy].
Definition any_draw : anyty := AnyT 0 64 [MMove; MUser 7; MDestroy].
Definition any_wide : anyty := AnyT 0 64 [MMove; MUser 7; MDestroy; MCopy 0 64].
Definition any_pinned : anyty := AnyT 0 64 [MUser 7; MDestroy].

(** uses_allocator construction from an any of the same class nests it *)
Lemma alloc_nests : exists E a r m m', proper r /\ construct E a (arguments a r) = Done m /\ means E a r m' /\ m <> m' /\
  exists ys, md_content m = Holds (TAny a) ys.
Proof.
  exists ex_env, any_copy, (RWithAlloc true true false false (Some (WValue (TAny any_copy) true true))).
  exists (Made (Holds (TAny any_copy) [AExpr (TAny any_copy) true true]) false FromArg), (Made CopyOf false FromArg).
  split; [done|]. split; [vm_compute; reflexivity|]. split; [|split; [done|eauto]].
  eapply mn_take_alloc, tk_copy; [now left|done|]. now left.
Qed.
Lemma alloc_in_place : exists E a r m m' t, proper r /\ construct E a (arguments a r) = Done m /\ means E a r m' /\
  (exists ys, md_content m = Holds (TInPlace t) ys) /\ exists ys, md_content m' = Holds t ys.
Proof.
  exists ex_env, any_copy, (RWithAlloc true true false false (Some (WInPlace (TObj 0) true true []))).
  exists (Made (Holds (TInPlace (TObj 0)) [AExpr (TInPlace (TObj 0)) true true]) false FromArg), (Made (Holds (TObj 0) []) false FromArg), (TObj 0).
  split; [now split|]. split; [vm_compute; reflexivity|]. split; [|split; eauto].
  apply mn_with_alloc, st_in_place; [|done]. apply suits_spec. vm_compute. reflexivity.
Qed.
(** and with arguments it does not compile *)
Lemma alloc_in_place_args : exists E a r m', proper r /\ construct E a (arguments a r) = Ill /\ means E a r m'.
Proof.
  exists ex_env, any_copy, (RWithAlloc true true false false (Some (WInPlace (TObj 0) true true [AExpr (TObj 5) false true; AExpr (TObj 5) false false]))).
  eexists. split; [split|split; [vm_compute; reflexivity|]].
  - cbn. intros x [<-|[<-|[]]] H; exact H.
  - intros H; exact H.
  - apply mn_with_alloc, st_in_place; [|done]. apply suits_spec. vm_compute. reflexivity.
Qed.
(** a type that is not suited is asked for in place: the tag is stored *)
Lemma tag_stored : exists E a r m t, proper r /\ r = RPlain (Some (WInPlace t true true [])) /\ construct E a (arguments a r) = Done m /\
  (forall m', ~ means E a r m') /\ exists ys, md_content m = Holds (TInPlace t) ys.
Proof.
  exists ex_env, any_copy, (RPlain (Some (WInPlace (TObj 1) true true []))).
  exists (Made (Holds (TInPlace (TObj 1)) [AExpr (TInPlace (TObj 1)) true true]) false FromDefault), (TObj 1).
  split; [now split|]. split; [done|]. split; [vm_compute; reflexivity|]. split; [|eauto].
  intros m' H. apply means_plain in H as [(k & H & _)|(k & s & H & _)]; [|now inversion H]. inversion H; subst.
  assert (Hs : exist_for ex_env (TObj 1) (at_ms any_copy) = true) by now apply suits_spec. vm_compute in Hs. done.
Qed.
(** [any = std::in_place_type<T>]: an object T() *)
Lemma assign_tag_makes : exists E a t c lv, ~ suits E a (TInPlace t) /\ assign E a (AExpr (TInPlace t) c lv) = ADone (Holds t []) /\
  forall k, ~ assigns E a (TInPlace t) c lv k.
Proof.
  exists ex_env, any_draw, (TObj 0), true, true.
  assert (Hn : ~ suits ex_env any_draw (TInPlace (TObj 0))) by (rewrite <- suits_spec; vm_compute; done).
  split; [exact Hn|]. split; [vm_compute; reflexivity|]. intros k H. inversion H; subst.
  - inversion H0; subst. done.
  - destruct H0 as [H0|[n H0]]; discriminate H0.
  - inversion H2; subst; match goal with Ha : any_of _ _ |- _ => destruct Ha as [Ha|[n Ha]]; discriminate Ha end.
Qed.
