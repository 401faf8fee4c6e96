(** Concrete vectors used by the examples beside the theorems about capacity and moves. *)
From stdpp Require Import list.
From Verif Require Import CapModel CapSpec MoveModel.

(** the 8th allocation fails; each column gets a different surplus; shrink_to_fit reallocates; at most 20 and 15 elements *)
Definition al (k : nat) : option nat := if k =? 8 then None else Some (k - 2).
Definition sh (k : nat) : option nat := Some 0.
Definition mxs (j : nat) : nat := if j =? 0 then 20 else 15.
Fixpoint cap_run (os : list cop) (s : cstate) : option cstate :=
  match os with
  | [] => Some s
  | o :: tl => match c_step al sh mxs o s with COk s' => cap_run tl s' | _ => None end
  end.
Lemma cap_run_history N os : forall s s', cap_history al sh mxs N s -> cap_run os s = Some s' -> cap_history al sh mxs N s'.
Proof.
  induction os as [|o os IH]; intros s s' H E; cbn in E; [by simplify_eq|].
  destruct (c_step al sh mxs o s) as [s1| |] eqn:Es; [|done..]. eapply IH; [|exact E]. by eapply ch_step.
Qed.
Definition cap_prog : list cop := [CReserve 3; CEmplaceBack; CInsertN 0 2; CErase 1; CInsertRange 0 1 true].
Definition cap_s : cstate := CSt [VCol 3 3 2; VCol 3 4 3] 4.
Lemma cap_s_history : cap_history al sh mxs 2 cap_s.
Proof. apply (cap_run_history 2 cap_prog (c_empty 2)); [constructor|]. by vm_compute. Qed.
Lemma al_7 : exists s, cap_run [CResize 5; CResize 8; CErase 0] cap_s = Some s /\ (exists s', c_step al sh mxs (CReserve 15) s = CThrow s').
Proof. eexists. split; [vm_compute; reflexivity|]. eexists. vm_compute. reflexivity. Qed.
(** the field 1 cannot be copied in [mo], field 2 cannot be moved *)
Definition mo (j : nat) : bool := negb (j =? 1).
Definition hm (j : nat) : bool := negb (j =? 2).
