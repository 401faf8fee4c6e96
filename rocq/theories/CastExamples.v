(** Concrete states used by the examples beside the theorems about any_cast. *)
From stdpp Require Import gmap list.
From Verif Require Import TypeListModel AnyModel AnyInv AnyHistory AnyExec AnyFacts AnyExamples DescModel PolyModel PolySpec PolyExamples CastModel CastSpec.

(** the 9th question to the oracle is answered with an exception *)
Definition castE : env := mkE 16 true false false [8].
Definition cast_w : world := after castE obs_prog.
Lemma cast_w_reachable : reachable castE cast_w.
Proof. apply after_reachable. by vm_compute. Qed.
(** moved-from objects keep the value 0 *)
Definition mv0 : movers := Movers (fun _ _ => 0) (fun _ _ => 99).
(** result, and what two anys contain afterwards *)
Definition cast_run (i T : nat) (t : tform) (c rv : bool) : option (option cres * option (option (nat * nat)) * option (option (nat * nat))) :=
  match cast_any_as castE obs0 mv0 i T t c rv cast_w with
  | Ok r w => Some (Some r, content w i, content w 0)
  | Exn w => Some (None, content w i, content w 0)
  | _ => None
  end.
