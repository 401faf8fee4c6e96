(** Concrete descriptors, comparisons and states used by the examples beside the theorems about views. *)
From stdpp Require Import gmap list.
From Coq Require Import ZArith.
From Verif Require Import TypeListModel TypeListSpec TypeListProofs AnyModel AnyInv AnyHistory AnyExec AnyFacts AnyExamples DescModel DescSpec DescProofs
  PolyModel PolySpec.

(** type n is spelled with the single character n + 2, void with the character 1; every name at its own address *)
Definition name0 (t : option nat) : list Z := match t with None => [1%Z] | Some n => [(Z.of_nat n + 2)%Z] end.
Definition desc0 (t : option nat) : descriptor :=
  Desc (match t with None => 0 | Some n => S n end) (name0 t ++ [0%Z]).
Definition obs0 : obs :=
  Obs desc0 (fun _ x y => Nat.eqb x y) (fun _ x y => Some (Nat.compare x y)) (fun T x => T + x) (fun p => match p with None => 0 | Some _ => 1 end) (fun _ => true).
Lemma obs0_wf : obs_wf obs0.
Proof.
  split.
  - exists name0. split.
    + intros t. exists []. split; [by destruct t|]. destruct t as [n|]; cbn; intros [H|[]]; lia.
    + intros [n|] [m|] H; unfold name0 in H; try done; injection H as H; [f_equal|..]; lia.
  - intros [n|] [m|]; cbn; try done. intros [= ->]. done.
Qed.

Definition eqs : list method := [MUser 0; MDestroy; MMove; MCopy true; MTypeInfo; MEqualTo; MHash; MUser 1].
Definition ords : list method := [MDestroy; MMove; MSpaceship; MEqualTo; MHash; MUser 0].
(** 0, 1: equal big values; 2: same value, other type; 3: empty; 4, 5: ordered values; 6: empty *)
Definition obs_prog : list op :=
  [ OValue 0 0 eqs 1 (AVal 10) false; OCopy 1 0 eqs; OValue 2 0 eqs 5 (AVal 10) true; ODefault 3 0 eqs;
    OValue 4 0 ords 1 (AVal 10) false; OValue 5 0 ords 1 (AVal 20) false; ODefault 6 0 ords ].
Definition obsE : env := mkE 16 true false false [].
Definition obs_w : world := after obsE obs_prog.
Lemma obs_w_reachable : reachable obsE obs_w.
Proof. apply after_reachable. by vm_compute. Qed.
Definition methods_of (w : world) (i : nat) : option (list method) := match w_any w !! i with Some a => Some (a_ms a) | None => None end.
(** use the view obtained from [o] through [l] *)
Definition viewed {A} (o : origin) (l : list step) (k : cur -> M A) : M A := bindM (bindM (start obs0 o) (run_steps obs0 l)) k.
Lemma has_sub_inv ms ms0 : has_subsequence meqb ms ms0 = CtOk true -> contiguous ms ms0.
Proof. apply (has_subsequence_iff meqb meqb_ok). Qed.
(** a chain through every kind of view *)
Definition C29_steps : list step :=
  [ToPtr [MDestroy; MMove; MCopy true; MTypeInfo; MEqualTo; MHash; MUser 1]; Deref; ToSref 0 [MUser 1; MTypeInfo; MUser 1; MMove];
   ToScref 1 [MMove; MUser 1; MTypeInfo]; GetView; ToCRef [MUser 1; MTypeInfo]; AddrOf; ConstCast; ToPtr [MUser 1]].
