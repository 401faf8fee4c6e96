(** Which constructors run when a value enters or leaves a data_parallel_vector.
    P = include/anyany/data_parallel_vector.hpp.  Nothing throws here (DpvModel.v has exceptions). *)
From stdpp Require Import list.

(** a copy or move construction of the j-th field *)
Inductive mev := MMove (j : nat) | MCopy (j : nat).
Global Instance mev_dec : EqDecision mev. Proof. solve_decision. Defined.

Section Move.
  (** the j-th field's type has a copy / a move constructor; a moved from value *)
  Context (copyable has_move : nat -> bool) (mf : nat -> nat).
  (** construct the j-th field from an lvalue or an xvalue ([rv]) with value x: the event and what is left of x.  None: does not compile *)
  Definition construct (j : nat) (rv : bool) (x : nat) : option (nat * mev) :=
    if rv && has_move j then Some (mf x, MMove j) else if copyable j then Some (x, MCopy j) else None.
  (** the parameters element_t<Is>... fields, by value, from Traits::get<Is>(v) or get<Is>(std::move(v)) (P 568-574, 592-599).  Left to right:
      each field is accessed once, so the order does not matter.  Result: what is left of v, and the events; the parameters have v's values *)
  Fixpoint init_params (j : nat) (rv : bool) (v : list nat) : option (list nat * list mev) :=
    match v with
    | [] => Some ([], [])
    | x :: tl => match construct j rv x, init_params (S j) rv tl with
                 | Some (x', e), Some (tl', es) => Some (x' :: tl', e :: es)
                 | _, _ => None
                 end
    end.
  (** P 557-564 (conts.emplace(conts.begin() + pos.index, fields), ...): the parameter is an lvalue *)
  Fixpoint emplace_cols (j i : nat) (params : list nat) (cols : list (list nat)) : option (list (list nat) * list mev) :=
    match params, cols with
    | [], [] => Some ([], [])
    | x :: ps, col :: tl =>
        match construct j false x, emplace_cols (S j) i ps tl with
        | Some (_, e), Some (tl', es) => if i <=? length col then Some ((take i col ++ x :: drop i col) :: tl', e :: es) else None
        | _, _ => None
        end
    | _, _ => None
    end.
  (** P 568-574 push_back (i = size()), P 592-599 insert: of an lvalue or an rvalue.  Result: the columns, what is left of the argument, events *)
  Definition m_insert (i : nat) (rv : bool) (v : list nat) (cols : list (list nat)) : option (list (list nat) * list nat * list mev) :=
    match init_params 0 rv v, emplace_cols 0 i v cols with
    | Some (v', es), Some (cols', es') => Some (cols', v', es ++ es')
    | _, _ => None
    end.
  (** P 256-271 iter_move: value_type(std::move(std::get<Is>(owner->parts)[index])...).  Result: the value, the columns, events *)
  Fixpoint iter_move (j i : nat) (cols : list (list nat)) : option (list nat * list (list nat) * list mev) :=
    match cols with
    | [] => Some ([], [], [])
    | col :: tl => match col !! i with
                   | Some x => match construct j true x, iter_move (S j) i tl with
                               | Some (x', e), Some (v, tl', es) => Some (x :: v, <[i := x']> col :: tl', e :: es)
                               | _, _ => None
                               end
                   | None => None
                   end
    end.
End Move.
