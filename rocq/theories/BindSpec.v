(** When namespace n is looked into for a type: it is one of the class's own or one of a template argument's. *)
From stdpp Require Import list.
From Verif Require Import BindModel.

Fixpoint has_namespace (n : nspace) (t : cty) : Prop :=
  match t with
  | CNoClass => False
  | CClass own args => n ∈ own \/ (fix any l := match l with [] => False | a :: tl => has_namespace n a \/ any tl end) args
  end.
