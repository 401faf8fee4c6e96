(** What is asked of the layout of anys and views (C93). *)
From stdpp Require Import list.
From Verif Require Import LayoutModel.

(** sensible classes: alignment a power of two that divides sizeof, data within sizeof, empty iff without data *)
Definition sensible (m : member) : Prop :=
  (exists k, m_align m = 2 ^ k) /\ Nat.divide (m_align m) (m_size m) /\ 0 < m_size m /\ m_data m <= m_size m /\
  (m_empty m = true <-> m_data m = 0).

(** n bytes at a and m bytes at b share none *)
Definition apart (a n b m : nat) : Prop := forall k, a <= k < a + n -> ~ (b <= k < b + m).
(** n bytes at a are in the first m *)
Definition within (a n m : nat) : Prop := forall k, a <= k < a + n -> k < m.
(** an address is suitable for alignment a *)
Definition aligned (a off : nat) : Prop := Nat.divide a off.

(** bytes of a member that are data: of one that shares nothing, all *)
Definition occupies (m : member) : nat := if m_empty m && m_shares m then 0 else if m_shares m then m_data m else m_size m.

(** every member aligned and inside, the data of different ones apart; sizeof a multiple of alignof *)
Definition laid_out (ms : list member) (l : layout) : Prop :=
  length (l_offs l) = length ms /\ aligned (l_align l) (l_size l) /\
  (forall i m off, ms !! i = Some m -> l_offs l !! i = Some off ->
     aligned (m_align m) off /\ aligned (m_align m) (l_align l) /\ within off (m_size m) (l_size l)) /\
  (forall i j m m' off off', i <> j -> ms !! i = Some m -> ms !! j = Some m' -> l_offs l !! i = Some off -> l_offs l !! j = Some off' ->
     apart off (occupies m) off' (occupies m')) /\
  (* empty subobjects of the same type have different addresses *)
  (forall i j m m' off t, i <> j -> ms !! i = Some m -> ms !! j = Some m' -> l_offs l !! i = Some off -> l_offs l !! j = Some off ->
     m_empty m && m_shares m = true -> m_empty m' && m_shares m' = true -> t ∈ m_types m -> t ∉ m_types m').

(** byte k of an any is neither vtable_ptr, nor value_ptr, nor of data or size_allocated, nor data of the interface or the allocator *)
Definition useless (soos : nat) (interface alloc : member) (l : layout) (k : nat) : Prop :=
  k < l_size l /\
  forall ob ov op od oa, l_offs l = [ob; ov; op; od; oa] ->
    ~ (ob <= k < ob + occupies interface) /\ ~ (ov <= k < ov + word) /\ ~ (op <= k < op + word) /\
    ~ (od <= k < od + Nat.max soos word) /\ ~ (oa <= k < oa + occupies alloc).
