(** The state and visitor used by the example beside the theorems about visitors. *)
From stdpp Require Import gmap list.
From Verif Require Import TypeListModel AnyModel AnyInv AnyHistory AnyExec AnyFacts AnyExamples PolyModel PolySpec VisitorModel.

(** any 0 holds a visitor of class 1 with value 10; anys 1, 2 hold visited objects of types 0 and 5; class 1 ignores type 5 *)
Definition C58_ms : list method := visitor_interface [0; 5] ++ visitor2_interface [0; 5] [5] ++ [MDestroy; MMove].
Definition C58_prog : list op :=
  [OValue 0 0 C58_ms 1 (AVal 10) false; OValue 1 0 [MDestroy; MMove] 0 (AVal 3) false; OValue 2 0 [MDestroy; MMove] 5 (AVal 4) false].
Definition C58_w : world := after (mkE 16 true false false []) C58_prog.
Definition C58_body : vbodies :=
  VBodies (fun V Ts => bool_decide (V = 1 /\ Ts = [5]))
    (fun V x args => match args with
                     | (T, q) :: _ => let! o := read_as T q in write_place q (Some (Obj T (o_val o + x + length args) (o_id o)))
                     | [] => retM tt end).
