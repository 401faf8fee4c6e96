(** What data_parallel_vector<T> is compared with: std::vector<T>, T a record of N fields. *)
From Coq Require Import ZArith.
From stdpp Require Import gmap list.
From Verif Require Import DpvModel.

Definition vec : Type := list row.
Definition vec_insert (i : nat) (rs v : list row) : list row := take i v ++ rs ++ drop i v.
Definition vec_resize (n : nat) (r : row) (v : list row) : list row := take n v ++ replicate (n - length v) r.

Section Spec.
  Context (N : nat) (dfl : nat -> nat).
  Definition is_row (r : row) : Prop := length r = N.
  Definition default_row : row := map dfl (seq 0 N).

  (** std::vector<T>'s operations on the named vectors; with the position of the returned iterator or reference *)
  Definition vec_step (o : dop) (m : gmap nat (list row)) : gmap nat (list row) * option nat :=
    match o with
    | DNew x => (<[x := []]> m, None)
    | DNewCount x n => (<[x := replicate n default_row]> m, None)
    | DNewFill x n r | DAssignN x n r => (<[x := replicate n r]> m, None)
    | DNewRange x _ _ rs | DAssignRange x _ _ rs => (<[x := rs]> m, None)
    | DCopy x y | DCopyAssign x y => (match m !! y with Some v => <[x := v]> m | None => m end, None)
    | DMove x y | DMoveAssign x y => (match m !! y with Some v => <[x := v]> (<[y := []]> m) | None => m end, None)
    | DSwap x y => (match m !! x, m !! y with Some v, Some u => <[y := v]> (<[x := u]> m) | _, _ => m end, None)
    | DPush x r => (alter (fun v => v ++ [r]) x m, None)
    | DEmplaceBack x r => (alter (fun v => v ++ [r]) x m, length <$> m !! x)
    | DInsert x i r => (alter (vec_insert i [r]) x m, Some i)
    | DInsertN x i n r => (alter (vec_insert i (replicate n r)) x m, Some i)
    | DInsertRange x i _ _ _ rs => (alter (vec_insert i rs) x m, Some i)
    | DErase x i => (alter (fun v => take i v ++ drop (S i) v) x m, Some i)
    | DEraseRange x b e => (alter (fun v => take b v ++ drop e v) x m, Some b)
    | DPop x => (alter (fun v => take (pred (length v)) v) x m, None)
    | DClear x => (alter (fun _ => []) x m, None)
    | DReserve x | DShrink x => (m, None)
    | DResize x n => (alter (vec_resize n default_row) x m, None)
    | DResizeV x n r => (alter (vec_resize n r) x m, None)
    | DSet x i r => (alter (fun v => <[i := r]> v) x m, None)
    | DSetFrom x i y j => (match m !! y with
                           | Some u => match u !! j with Some r => alter (fun v => <[i := r]> v) x m | None => m end
                           | None => m
                           end, None)
    | DSwapRows x i y j => (match m !! x, m !! y with
                            | Some v, Some u => match v !! i, u !! j with
                                                | Some a, Some b => alter (fun v => <[j := a]> v) y (alter (fun v => <[i := b]> v) x m)
                                                | _, _ => m
                                                end
                            | _, _ => m
                            end, None)
    end.

  (** position inside / at most the end of the vector named x *)
  Definition inside (m : gmap nat (list row)) (x i : nat) : Prop := exists v, m !! x = Some v /\ i < length v.
  Definition upto (m : gmap nat (list row)) (x i : nat) : Prop := exists v, m !! x = Some v /\ i <= length v.

  (** statements that are meaningful for std::vector<T>; T has N fields.  erase(b, e) is left out as it cannot be compiled. *)
  Definition vec_legal (o : dop) (m : gmap nat (list row)) : Prop :=
    match o with
    | DNew x | DNewCount x _ => m !! x = None
    | DNewFill x _ r => m !! x = None /\ is_row r
    | DNewRange x _ _ rs => m !! x = None /\ Forall is_row rs
    | DCopy x y | DMove x y => m !! x = None /\ is_Some (m !! y)
    | DCopyAssign x y | DSwap x y => is_Some (m !! x) /\ is_Some (m !! y)
    | DMoveAssign x y => is_Some (m !! x) /\ is_Some (m !! y) /\ x <> y
    | DPush x r | DEmplaceBack x r | DResizeV x _ r | DAssignN x _ r => is_Some (m !! x) /\ is_row r
    | DInsert x i r | DInsertN x i _ r => upto m x i /\ is_row r
    | DInsertRange x i moving _ ord rs => upto m x i /\ Forall is_row rs /\ ord ≡ₚ seq 0 N /\
        (moving = true -> exists v, m !! x = Some v /\ i = length v)
    | DErase x i => inside m x i
    | DEraseRange _ _ _ => False
    | DPop x => inside m x 0
    | DClear x | DReserve x | DShrink x | DResize x _ => is_Some (m !! x)
    | DAssignRange x _ _ rs => is_Some (m !! x) /\ Forall is_row rs
    | DSet x i r => inside m x i /\ is_row r
    | DSetFrom x i y j | DSwapRows x i y j => inside m x i /\ inside m y j
    end.
  Inductive vec_history : list dop -> gmap nat (list row) -> Prop :=
  | vh_nil : vec_history [] ∅
  | vh_snoc l o m : vec_history l m -> vec_legal o m -> vec_history (l ++ [o]) (fst (vec_step o m)).

  (** the members that look at a vector show the rows of v; the views show its columns *)
  Definition same_contents (c : dpv) (v : list row) : Prop :=
    d_size c None = DOk (length v) c None /\
    d_empty c None = DOk (bool_decide (v = [])) c None /\
    (forall i r, v !! i = Some r -> d_read i c None = DOk r c None) /\
    (forall r, head v = Some r -> d_front c None = DOk r c None) /\
    (forall r, last v = Some r -> d_back c None = DOk r c None).
  Definition same_columns (c : dpv) (v : list row) : Prop :=
    forall j, j < N -> exists col, d_view j c None = DOk col c None /\ length col = length v /\
      forall i r, v !! i = Some r -> col !! i = r !! j.
End Spec.

(** ** Comparison *)
Section Compare.
  Context (cmp : nat -> nat -> nat -> option comparison).
  (** the fields before the n-th compare equal, the n-th does not *)
  Definition first_unequal (a b : row) (n : nat) (res : option comparison) : Prop :=
    (exists x y, a !! n = Some x /\ b !! n = Some y /\ cmp n x y = res /\ res <> Some Eq) /\
    forall m x y, m < n -> a !! m = Some x -> b !! m = Some y -> cmp m x y = Some Eq.
  Definition all_equal (a b : row) : Prop := forall m x y, a !! m = Some x -> b !! m = Some y -> cmp m x y = Some Eq.
End Compare.

(** ** Exceptions *)
(** the class's invariant (P 61): all columns have the same size *)
Definition valid_vec (N : nat) (c : dpv) : Prop := length c = N /\ exists n, Forall (fun col : list nat => length col = n) c.
Definition all_valid (N : nat) (w : dworld) : Prop := forall x c, w !! x = Some c -> valid_vec N c.
(** statements that make a new vector or temporary first, or that never change the number of elements *)
Definition keeps_size (o : dop) : bool :=
  match o with
  | DNew _ | DNewCount _ _ | DNewFill _ _ _ | DNewRange _ _ _ _ | DCopy _ _ | DAssignN _ _ _ | DAssignRange _ _ _ _
  | DMove _ _ | DMoveAssign _ _ | DSwap _ _ | DReserve _ | DShrink _ | DSet _ _ _ | DSetFrom _ _ _ _ | DSwapRows _ _ _ _ => true
  | _ => false
  end.

(** the row a program reads at z[k] *)
Definition row_at (w : dworld) (z k : nat) : option row :=
  match w !! z with Some c => match d_read k c None with DOk r _ _ => Some r | _ => None end | None => None end.
Definition size_at (w : dworld) (z : nat) : option nat :=
  match w !! z with Some c => match d_size c None with DOk n _ _ => Some n | _ => None end | None => None end.

(** ** Integers *)
Definition is_u64 (z : Z) : Prop := (0 <= z < 2 ^ 64)%Z.
Definition is_s64 (z : Z) : Prop := (- 2 ^ 63 <= z < 2 ^ 63)%Z.

(** ** Sizes only: also for the statements whose contents differ from std::vector's *)
Section Sizes.
  Context (N : nat).
  Definition size_step (o : dop) (s : gmap nat nat) : gmap nat nat :=
    match o with
    | DNew x => <[x := 0]> s
    | DNewCount x n | DNewFill x n _ | DAssignN x n _ => <[x := n]> s
    | DNewRange x _ _ rs | DAssignRange x _ _ rs => <[x := length rs]> s
    | DCopy x y | DCopyAssign x y => match s !! y with Some n => <[x := n]> s | None => s end
    | DMove x y | DMoveAssign x y => match s !! y with Some n => <[x := n]> (<[y := 0]> s) | None => s end
    | DSwap x y => match s !! x, s !! y with Some n, Some k => <[y := n]> (<[x := k]> s) | _, _ => s end
    | DPush x _ | DEmplaceBack x _ | DInsert x _ _ => alter S x s
    | DInsertN x _ n _ => alter (fun k => k + n) x s
    | DInsertRange x _ _ _ _ rs => alter (fun k => k + length rs) x s
    | DErase x _ | DPop x => alter pred x s
    | DEraseRange x b e => alter (fun k => k - (e - b)) x s
    | DClear x => alter (fun _ => 0) x s
    | DResize x n | DResizeV x n _ => alter (fun _ => n) x s
    | DReserve _ | DShrink _ | DSet _ _ _ | DSetFrom _ _ _ _ | DSwapRows _ _ _ _ => s
    end.
  Definition below (s : gmap nat nat) (x i : nat) : Prop := exists n, s !! x = Some n /\ i < n.
  Definition within (s : gmap nat nat) (x i : nat) : Prop := exists n, s !! x = Some n /\ i <= n.
  (** every statement but erase(b, e), also moving ranges anywhere *)
  Definition size_legal (o : dop) (s : gmap nat nat) : Prop :=
    match o with
    | DNew x | DNewCount x _ => s !! x = None
    | DNewFill x _ r => s !! x = None /\ is_row N r
    | DNewRange x _ _ rs => s !! x = None /\ Forall (is_row N) rs
    | DCopy x y | DMove x y => s !! x = None /\ is_Some (s !! y)
    | DCopyAssign x y | DSwap x y => is_Some (s !! x) /\ is_Some (s !! y)
    | DMoveAssign x y => is_Some (s !! x) /\ is_Some (s !! y) /\ x <> y
    | DPush x r | DEmplaceBack x r | DResizeV x _ r | DAssignN x _ r => is_Some (s !! x) /\ is_row N r
    | DInsert x i r | DInsertN x i _ r => within s x i /\ is_row N r
    | DInsertRange x i _ _ ord rs => within s x i /\ Forall (is_row N) rs /\ ord ≡ₚ seq 0 N
    | DErase x i => below s x i
    | DEraseRange _ _ _ => False
    | DPop x => below s x 0
    | DClear x | DReserve x | DShrink x | DResize x _ => is_Some (s !! x)
    | DAssignRange x _ _ rs => is_Some (s !! x) /\ Forall (is_row N) rs
    | DSet x i r => below s x i /\ is_row N r
    | DSetFrom x i y j | DSwapRows x i y j => below s x i /\ below s y j
    end.
  Inductive size_history : list dop -> gmap nat nat -> Prop :=
  | sh_nil : size_history [] ∅
  | sh_snoc l o s : size_history l s -> size_legal o s -> size_history (l ++ [o]) (size_step o s).
End Sizes.

(** ** Fields compared with their own == *)
Definition fields_equal (eqf : nat -> nat -> nat -> bool) (a b : row) : Prop := forall j x y, a !! j = Some x -> b !! j = Some y -> eqf j x y = true.
