(** What visiting through an erased visitor should do. *)
From stdpp Require Import gmap list.
From Verif Require Import AnyModel AnyInv PolyModel VisitorModel.

(** an object of type T lives at q *)
Definition holds (w : world) (T : nat) (q : ptr) : Prop := exists o, obj_at w q = Some o /\ o_ty o = T.
(** the visitor's own overload for exactly these types, once; nothing when it is a no-op *)
Definition expected (B : vbodies) (V x : nat) (args : list (nat * ptr)) : M unit :=
  if vb_noop B V (map fst args) then retM tt else vb_run B V x args.
