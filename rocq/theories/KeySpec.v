(** Specification for C100: sets of values. *)
From stdpp Require Import gmap list sorting.
From Verif Require Import AnyModel AnyInv AnyHistory AnyFacts PolyModel PolySpec VectorSpec.

(** a value, or nothing *)
Definition value : Set := option (nat * nat).
(** the stored types are equality comparable and hashable as std::unordered_set asks *)
Record hashable (O : obs) : Prop := {
  h_refl : forall T x, ob_eq O T x x = true;
  h_sym : forall T x y, ob_eq O T x y = true -> ob_eq O T y x = true;
  h_trans : forall T x y z, ob_eq O T x y = true -> ob_eq O T y z = true -> ob_eq O T x z = true;
  h_hash : forall T x y, ob_eq O T x y = true -> ob_hash O T x = ob_hash O T y
}.
Definition key_class (ms : list method) : Prop :=
  In MDestroy ms /\ In (MCopy true) ms /\ In MEqualTo ms /\ In MHash ms /\ ~ In MSpaceship ms.
(** the set has a value equal to [v] *)
Definition member (O : obs) (S : list value) (v : value) : Prop := exists u, In u S /\ same_value O u v.
(** [S'] is [S] without its value equal to [v] *)
Definition without (O : obs) (S S' : list value) (v : value) : Prop := exists u, same_value O u v /\ S ≡ₚ u :: S'.
(** no two values are equal *)
Fixpoint distinct (O : obs) (S : list value) : Prop :=
  match S with [] => True | v :: tl => ~ member O tl v /\ distinct O tl end.
(** the key [k] exists, is of the class, and holds [v] *)
Definition key (ms : list method) (w : world) (k : nat) (v : value) : Prop :=
  has_any w k (fun a => a_ms a = ms) /\ content w k = Some v.
(** the anys [l] hold the values [S] *)
Definition hold_values (w : world) (l : list nat) (S : list value) : Prop := map (content w) l ≡ₚ map Some S.

(** a strict weak order of the values of one type *)
Record weakly_ordered (O : obs) (T : nat) : Prop := {
  o_irrefl : forall x, ob_cmp O T x x <> Some Lt;
  o_trans : forall x y z, ob_cmp O T x y = Some Lt -> ob_cmp O T y z = Some Lt -> ob_cmp O T x z = Some Lt;
  o_neg_trans : forall x y z, ob_cmp O T x y <> Some Lt -> ob_cmp O T y z <> Some Lt -> ob_cmp O T x z <> Some Lt
}.
Definition ordered_class (ms : list method) : Prop := In MDestroy ms /\ In (MCopy true) ms /\ In MSpaceship ms.
Definition equivalent (O : obs) (T x y : nat) : Prop := ob_cmp O T x y <> Some Lt /\ ob_cmp O T y x <> Some Lt.
(** [L]: increasing values, no two equivalent *)
Definition increasing (O : obs) (T : nat) : list nat -> Prop := StronglySorted (fun x y => ob_cmp O T x y = Some Lt).
(** [L'] is [L] with [x] at its place *)
Definition placed (O : obs) (T : nat) (L : list nat) (x : nat) (L' : list nat) : Prop :=
  exists A B, L = A ++ B /\ L' = A ++ x :: B /\ (forall y, In y A -> ob_cmp O T y x = Some Lt) /\ (forall y, In y B -> ob_cmp O T x y = Some Lt).
(** [L'] is [L] without the value equivalent to [x] *)
Definition taken (O : obs) (T : nat) (L : list nat) (x : nat) (L' : list nat) : Prop :=
  exists A y B, L = A ++ y :: B /\ L' = A ++ B /\ equivalent O T x y.
Definition has_equivalent (O : obs) (T : nat) (L : list nat) (x : nat) : Prop := exists y, In y L /\ equivalent O T x y.
(** the anys [l] hold, in this order, the values [L] of type [T] *)
Definition hold_in_order (ms : list method) (T : nat) (w : world) (l L : list nat) : Prop :=
  Forall2 (fun i x => key ms w i (Some (T, x))) l L.
