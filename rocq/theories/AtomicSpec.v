(** What is expected of atomic pointers, without reference to how they are represented. *)
From stdpp Require Import list.
From Verif Require Import AnyModel PolyModel PolySpec RebindModel RebindSpec AtomicModel.

(** the words are those of a pointer to the target, null if there is none *)
Definition points (w : world) (k : kind) (ms : list method) (b : words) (d : target) : Prop := pointer_to w (as_ptr k ms b) k ms d.

(** whatever the thread reads, if all pointers it reads satisfy P then so do all it writes and its result *)
Fixpoint keeps (P : words -> Prop) (t : thread) : Prop :=
  match t with
  | TDone _ b => P b
  | TLoad k => forall b, P b -> keeps P (k b)
  | TStore b k => P b /\ keeps P k
  | TExchange b k => P b /\ forall c, P c -> keeps P (k c)
  | TCas e d k => P d /\ (P e -> keeps P (k true e)) /\ forall c, P c -> keeps P (k false c)
  end.
Definition is_done (t : thread) : Prop := exists ok b, t = TDone ok b.
Definition succeeded (t : thread) : Prop := exists b, t = TDone true b.
(** the functions one after the other in the order given by the indices *)
Fixpoint in_turn (fs : list (words -> words)) (order : list nat) (v : words) : words :=
  match order with
  | [] => v
  | i :: order => match fs !! i with Some f => in_turn fs order (f v) | None => in_turn fs order v end
  end.
(** the attempts that do not fail spuriously *)
Definition real (l : list bool) : nat := length (filter (fun b => b = false) l).
