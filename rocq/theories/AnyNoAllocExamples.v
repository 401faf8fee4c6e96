(** An allocator all of whose allocations fail (every question to the oracle is answered with an exception), and a program
    that stays within the buffers. *)
From stdpp Require Import gmap list.
From Verif Require Import TypeListModel AnyModel AnyInv AnyHistory AnyExec AnyNoAllocSpec AnyExamples.

Definition noMemE : env := Env ty_ex 16 true false false (fun a => a) false 0 meth_ex (fun _ => true).
Lemma noMemE_wf : env_wf noMemE.
Proof.
  split.
  - intros T. cbn. do 6 (destruct T as [|T]; [cbn; lia|]). cbn. lia.
  - intros T. cbn. do 6 (destruct T as [|T]; [done|]). done.
  - done.
Qed.

Definition small_tour : list op :=
  [ OValue 0 0 full 0 (AVal 3) true; OValue 1 0 full 5 (AVal 4) true; OValue 2 0 full 2 (AVal 5) true;
    OCopy 3 1 part; OCopy 4 2 full;                (* the copy of type 2 throws *)
    OMoveAssign 0 2; OCopyAssign 1 0 9;            (* throws as well *)
    OSwap 0 1 9; OInvoke 0 0 1; OSref 0 0 [MCopy true; MDestroy]; OMaterialize 5 0 (RSref 0); OEmplace 2 5 (AFrom 3) true;
    OReplace 1 16; OMove 6 2; OTransMove 7 3 part ].
Definition quiet_tour : list op :=
  [ OValue 0 0 full 0 (AVal 3) true; OValue 1 0 full 5 (AVal 4) true; OCopy 2 1 full; OCopyAssign 1 0 9; OSwap 0 2 9;
    OEmplace 2 5 (AFrom 0) true; OReplace 0 16; OMove 3 2; ODtor 3; ODtor 2 ].

Definition smallb (E : env) (T : nat) : bool :=
  (ty_size (e_ty E T) <=? e_soos E) && (ty_align (e_ty E T) <=? max_align) && ty_ntmove (e_ty E T).
Definition small_opb (E : env) (o : op) : bool :=
  match o with
  | OValue _ _ _ T _ _ | OEmplace _ T _ _ => smallb E T
  | OForce _ _ _ _ _ => false
  | OReplace _ n => n <=? e_soos E
  | _ => true
  end.
Definition quiet_opb (E : env) (o : op) : bool :=
  match o with
  | OValue _ _ _ T _ nt | OEmplace _ T _ nt => nt && (ty_tcopy (e_ty E T) || ty_ntcopy (e_ty E T))
  | OInvoke _ _ _ => false
  | _ => true
  end.
Lemma smallb_sound E T : smallb E T = true -> small E T.
Proof. unfold smallb, small. intros H. apply andb_prop in H as [H H3]. apply andb_prop in H as [H1 H2]. by rewrite <- !Nat.leb_le. Qed.
Lemma small_opb_sound E l : forallb (small_opb E) l = true -> Forall (small_op E) l.
Proof.
  intros H. apply List.Forall_forall. intros o Ho. rewrite forallb_forall in H. specialize (H o Ho).
  destruct o; cbn in H |- *; try done; try (by apply smallb_sound). by apply Nat.leb_le.
Qed.
Lemma quiet_opb_sound E l : forallb (quiet_opb E) l = true -> Forall (quiet_op E) l.
Proof.
  intros H. apply List.Forall_forall. intros o Ho. rewrite forallb_forall in H. specialize (H o Ho).
  destruct o; cbn in H |- *; try done; apply andb_prop in H as [H1 H2]; apply orb_prop in H2; done.
Qed.
