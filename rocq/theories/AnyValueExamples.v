(** Programs used by the examples of C95. *)
From stdpp Require Import gmap list.
From Verif Require Import TypeListModel TypeListSpec AnyModel AnyInv AnyHistory AnyExec AnyFacts AnyExamples AnyValueSpec.

(** every kind of operation on anys; allocators 0 and 2 *)
Definition errands : list op :=
  [ OValue 0 0 full 1 (AVal 10) false; OValue 1 2 full 5 (AVal 20) true; ODefault 2 0 full; OCopy 3 0 full; OMove 4 0; OInvoke 3 0 4;
    OCopyAssign 1 3 9; OEmplace 2 5 (AVal 30) true; OMoveAssign 0 2; OInvoke 0 1 7; OInvoke 0 0 5; OTransMove 5 4 part;
    OEmplace 4 5 (AFrom 0) true; OReplace 4 100; OForce 7 full 0 (AVal 50) false; OSref 0 0 [MCopy true; MDestroy]; OSwap 1 0 9; ODropSref 0;
    OReset 3; ODtor 5; ODtor 3 ].
Definition answers : list answer :=
  [ADone; ADone; ADone; ADone; ADone; AReturned 10; ADone; ADone; ADone; AThrew; AReturned 7; ADone; ADone; ADone; ADone; ADone; ADone; ADone;
   ADone; ADone; ADone].
Definition by_nameb (o : op) : bool := match o with OMaterialize _ _ (RSref _) => false | _ => true end.
Lemma by_nameb_sound l : forallb by_nameb l = true -> Forall by_name l.
Proof.
  rewrite forallb_forall, Forall_forall. intros H o Ho. specialize (H o (proj1 (elem_of_list_In _ _) Ho)).
  by destruct o as [| | | | | | | | | | | | | | | | | ? ? []].
Qed.

(** no buffer and allocators that propagate; a big buffer and allocators without state *)
Definition heapE : env := mkE 0 false true true [].
Definition inlineE : env := mkE 64 true false false [].

(** the third, sixth and seventh question whether something throws are answered with yes *)
Definition roughE : env := mkE 16 true false false [2; 5; 6].
Definition rough : list op :=
  [ OValue 0 0 full 1 (AVal 10) false; OCopy 1 0 full; OCopy 1 0 full;
    OEmplace 1 3 (AVal 5) false; OCopyAssign 1 0 9; OValue 3 0 full 0 (AVal 4) true; OMaterialize 4 0 (RAny 3 part) ].
