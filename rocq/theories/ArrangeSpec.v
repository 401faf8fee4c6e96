(** Specification for C104: the same algorithms on values. *)
From stdpp Require Import gmap list sorting.
From Verif Require Import AnyModel AnyInv AnyHistory AnyFacts PolyModel PolySpec VectorSpec KeySpec ArrangeModel.

(** what an any holds: nothing, or a value, and the block the value lives in if it does not live inside the any *)
Definition cell : Set := value * option nat.
Definition empty_cell : cell := (None, None).
(** which anys exist, and what they hold *)
Definition cells : Type := nat -> option cell.
Definition put (v : cells) (i : nat) (c : option cell) : cells := fun k => if k =? i then c else v k.

(** <: a value is before another value of its type, nothing is before nothing *)
Definition before (O : obs) (u v : value) : bool := match order_of O u v with Some Lt => true | _ => false end.
Definition comparable (u v : value) : bool := match u, v with Some _, None => false | _, _ => true end.

(** [None]: not allowed *)
Fixpoint vrun {A} (O : obs) (p : aprog A) (v : cells) : option (A * cells) :=
  match p with
  | ARet x => Some (x, v)
  | ALess i j k =>
      match v i, v j with
      | Some c, Some d => if comparable c.1 d.1 then vrun O (k (before O c.1 d.1)) v else None
      | _, _ => None
      end
  | AMove i j k =>
      match v i, v j with
      | None, Some c => vrun O k (put (put v j (Some empty_cell)) i (Some c))
      | _, _ => None
      end
  | AAssign i j k =>
      match v i, v j with
      | Some _, Some c => if i =? j then vrun O k v else vrun O k (put (put v j (Some empty_cell)) i (Some c))
      | _, _ => None
      end
  | AEnd i k => match v i with Some _ => vrun O k (put v i None) | None => None end
  end.

(** the program uses only the names [D] *)
Fixpoint within {A} (D : list nat) (p : aprog A) : Prop :=
  match p with
  | ARet _ => True
  | ALess i j k => In i D /\ In j D /\ forall b, within D (k b)
  | AMove i j k | AAssign i j k => In i D /\ In j D /\ within D k
  | AEnd i k => In i D /\ within D k
  end.

(** the block the value of any [k] lives in *)
Definition home (w : world) (k : nat) : option nat := match address w k with Some (PHeap b) => Some b | _ => None end.
Definition cell_of (w : world) (k : nat) : option cell := match content w k with Some c => Some (c, home w k) | None => None end.
(** the anys among [D] are of one class *)
Definition one_class (ms : list method) (w : world) (D : list nat) : Prop :=
  forall k a, In k D -> w_any w !! k = Some a -> a_ms a = ms.
Definition arrangeable (E : env) (ms : list method) : Prop := has_move_assign E ms = true /\ In MSpaceship ms.

(** the values that the anys [D] hold *)
Definition held (v : cells) (D : list nat) : list cell :=
  omap (fun k => match v k with Some (Some x, h) => Some (Some x, h) | _ => None end) D.
(** values in order; values that are before the same values as [x] *)
Definition in_order (O : obs) (T : nat) : list nat -> Prop := StronglySorted (fun x y => ob_cmp O T y x <> Some Lt).
Definition same_rank (O : obs) (T x y : nat) : bool :=
  match ob_cmp O T x y, ob_cmp O T y x with Some Lt, _ => false | _, Some Lt => false | _, _ => true end.
