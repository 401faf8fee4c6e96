(** Specification for C99: vectors of anys seen from outside. *)
From stdpp Require Import gmap list.
From Verif Require Import AnyModel AnyInv AnyHistory AnyFacts.

(** the elements in the order of the vector, each nothing or a value of some type *)
Definition elements (w : world) (l : list nat) : list (option (option (nat * nat))) := map (content w) l.
(** the allocators the elements use *)
Definition allocators (w : world) (l : list nat) : list (option nat) := map (fun i => match w_any w !! i with Some a => Some (a_alloc a) | None => None end) l.
(** the anys of [l] exist and are of the class with method list [ms]; they do not exist *)
Definition alive (ms : list method) (w : world) (l : list nat) : Prop := forall i, In i l -> has_any w i (fun a => a_ms a = ms).
Definition gone (w : world) (l : list nat) : Prop := forall i, In i l -> w_any w !! i = None.
(** every other any is as it was, its value is at its place *)
Definition others (w w' : world) (l : list nat) : Prop :=
  forall k, ~ In k l -> content w' k = content w k /\ address w' k = address w k /\ contained w' k = contained w k.
(** a value is on the heap and the new any has it at the same address *)
Definition same_blocks (w w' : world) (olds news : list nat) : Prop :=
  forall k o n b, olds !! k = Some o -> news !! k = Some n -> address w o = Some (PHeap b) -> address w' n = Some (PHeap b).
(** nothing that can fail is called and no memory is allocated *)
Definition nothing_made (w w' : world) : Prop := w_tick w' = w_tick w /\ allocs w' = allocs w.
(** a vector with the elements [olds], all different anys, and new storage for as many *)
Definition ready (E : env) (ms : list method) (w : world) (olds news : list nat) : Prop :=
  reachable E w /\ length news = length olds /\ NoDup (news ++ olds) /\ gone w news /\ alive ms w olds.
