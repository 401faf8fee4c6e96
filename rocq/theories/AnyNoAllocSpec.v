(** What a program does that stays within the buffers of its anys: README 276-277 "`aa::unreachable_allocator`, which
    will break compilation, if `basic_any_with<unreachable_allocator, ...>` tries to allocate memory.  So you can
    force no-allocating in types". *)
From Coq Require Import List.
From Verif Require Import AnyModel AnyHistory.

(** a type that lives in the buffer: small enough, not over-aligned, its move does not throw *)
Definition small (E : env) (T : nat) : Prop :=
  ty_size (e_ty E T) <= e_soos E /\ ty_align (e_ty E T) <= max_align /\ ty_ntmove (e_ty E T) = true.

(** operations that ask for no more memory than the buffer; every other operation (copies, moves, swaps,
    conversions, materialize) is unrestricted *)
Definition small_op (E : env) (o : op) : Prop :=
  match o with
  | OValue _ _ _ T _ _ => small E T
  | OEmplace _ T _ _ => small E T
  | OForce _ _ _ _ _ => False
  | OReplace _ n => n <= e_soos E
  | _ => True
  end.

(** ... and in which no code of the stored types throws: constructors and copies are noexcept, no method is called *)
Definition quiet_op (E : env) (o : op) : Prop :=
  match o with
  | OValue _ _ _ T _ nt | OEmplace _ T _ nt =>
      nt = true /\ (ty_tcopy (e_ty E T) = true \/ ty_ntcopy (e_ty E T) = true)
  | OInvoke _ _ _ => False
  | _ => True
  end.

(** the allocator was used *)
Definition touched_allocator (l : list event) : Prop :=
  exists b al n, In (EvAlloc b al n) l \/ In (EvFree b al n) l.
