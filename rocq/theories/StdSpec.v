(** What must hold of the traits and of move assignment, without overload resolution. *)
From stdpp Require Import list.
From Verif Require Import ConsModel ConsSpec StdModel.

(** what can be done with a type is also said of it in C++17 *)
Definition consistent (W : world) : Prop :=
  forall t, (e_copy (w_real W) t = true -> w_copy W t = true) /\ (e_move (w_real W) t = true -> w_move W t = true).
(** the value of an any can be moved to another any of its class, whatever their allocators are *)
Definition any_move_assignable (W : world) (a : anyty) : Prop :=
  any_movable a /\ (w_movable W (at_al a) = false -> has_move_method (at_ms a)).
Definition compiles (o : outcome) : Prop := exists m, o = Done m.
Definition assign_compiles (o : assigned) : Prop := exists c, o = ADone c.
(** no tag of std::in_place_type among the arguments *)
Definition no_tag (xs : list arg) : Prop := forall t c lv, ~ In (AExpr (TInPlace t) c lv) xs.
