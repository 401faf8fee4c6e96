(** A program with unique pointers for the examples of C57. *)
From stdpp Require Import gmap list.
From Verif Require Import AnyModel UniqueModel.

Definition C57_dealloc : method := MUser 100.
(** a pointer to a type 7 object is moved, converted to one method, then to a const pointer without methods, a second object replaced,
    a third swapped away; at the end everything is destroyed *)
Definition C57_prog : list uop :=
  [ UMake 0 false [MUser 1; MUser 2] 7; UMove 1 0; UConv 2 1 false [MUser 1]; UConv 3 2 true [];
    UMake 4 false [MUser 1] 8; UResetNew 4 9; UAssign 2 4; USwap 2 4; UDefault 5 true [MUser 1]; UAssignConv 5 4;
    UDtor 3; UDtor 5; UDtor 0; UDtor 1; UDtor 2; UDtor 4 ].
(** self move assignment *)
Definition C57_self : list uop := [ UMake 0 false [MUser 1] 7; UAssign 0 0 ].
