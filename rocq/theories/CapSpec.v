(** What callers may rely on about capacity and invalidation. *)
From stdpp Require Import list.
From Verif Require Import CapModel.

(** states reached by statements that did not throw, except that reserve and shrink_to_fit may have *)
Inductive cap_history alloc shrinks mx (N : nat) : cstate -> Prop :=
| ch_empty : cap_history alloc shrinks mx N (c_empty N)
| ch_step o s s' : cap_history alloc shrinks mx N s -> c_step alloc shrinks mx o s = COk s' -> cap_history alloc shrinks mx N s'
| ch_reserve_throws n s s' : cap_history alloc shrinks mx N s -> c_step alloc shrinks mx (CReserve n) s = CThrow s' -> cap_history alloc shrinks mx N s'.

(** every column has [n] elements *)
Definition all_sizes (s : cstate) (n : nat) : Prop := forall c, c ∈ s_cols s -> v_size c = n.
(** pointers, spans and iterators into the columns stay valid *)
Definition same_storage (s s' : cstate) : Prop := forall j : nat, v_buf <$> s_cols s !! j = v_buf <$> s_cols s' !! j.
(** the size a statement asks for; None: it does not grow the vector *)
Definition wanted (o : cop) (n : nat) : option nat :=
  match o with
  | CEmplaceBack | CEmplace _ => Some (n + 1)
  | CInsertN _ k | CInsertRange _ k _ => Some (n + k)
  | CResize k => Some k
  | CReserve k => Some k
  | CErase _ | CPopBack | CClear => None
  | CShrink => None
  end.
(** the size afterwards *)
Definition new_size (o : cop) (n : nat) : nat :=
  match o with
  | CEmplaceBack | CEmplace _ => n + 1
  | CInsertN _ k | CInsertRange _ k _ => n + k
  | CResize k => k
  | CErase _ | CPopBack => n - 1
  | CClear => 0
  | CReserve _ | CShrink => n
  end.
(** statements that keep within [k] elements, none of them shrink_to_fit, run one after another *)
Inductive within alloc shrinks mx (k : nat) : cstate -> cstate -> Prop :=
| within_done s : within alloc shrinks mx k s s
| within_step o s s1 s2 n : c_size s = Some n -> o <> CShrink -> (forall w, wanted o n = Some w -> w <= k) ->
    c_step alloc shrinks mx o s = COk s1 -> within alloc shrinks mx k s1 s2 -> within alloc shrinks mx k s s2.
