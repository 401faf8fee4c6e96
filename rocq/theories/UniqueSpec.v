(** Which programs with unique_ptr are meaningful, and which objects they create. *)
From stdpp Require Import gmap list.
From Verif Require Import TypeListSpec AnyModel UniqueModel.

Section Spec.
  Context (dealloc : method).
  (** declarations use new names, everything else declared ones; conversions go to a contiguous part of the methods,
      never from const to non-const; assignment and swap need the same type *)
  Definition u_legal (s : ust) (o : uop) : Prop :=
    match o with
    | UDefault u _ _ | UMake u _ _ _ => u_ptr s !! u = None
    | UResetNew u _ | UResetNull u | UDtor u => is_Some (u_ptr s !! u)
    | UMove u v => u_ptr s !! u = None /\ is_Some (u_ptr s !! v)
    | UConv u v c ms => u_ptr s !! u = None /\ exists x, u_ptr s !! v = Some x /\ contiguous (dealloc :: ms) (dealloc :: up_ms x) /\ (up_const x = true -> c = true)
    | UAssign u v | USwap u v => exists x y, u_ptr s !! u = Some x /\ u_ptr s !! v = Some y /\ up_ms x = up_ms y /\ up_const x = up_const y
    | UAssignConv u v => exists y x, u_ptr s !! u = Some y /\ u_ptr s !! v = Some x /\ contiguous (dealloc :: up_ms y) (dealloc :: up_ms x) /\
        (up_const x = true -> up_const y = true)
    end.
  Fixpoint u_allowed (l : list uop) (s : ust) : Prop :=
    match l with
    | [] => True
    | o :: tl => u_legal s o /\ match ustep dealloc o s with UOk s' => u_allowed tl s' | UBad _ => True end
    end.
  (** the types of the objects created, in order; the n-th is at address n *)
  Definition u_creates (o : uop) : list nat := match o with UMake _ _ _ T | UResetNew _ T => [T] | _ => [] end.
  Definition u_created (l : list uop) : list nat := concat (map u_creates l).
  Definition u_objects (l : list uop) : list (nat * nat) := zip (u_created l) (seq 0 (length (u_created l))).

  (** u holds the address a *)
  Definition u_owns (s : ust) (u a : nat) : Prop := exists p v, u_ptr s !! u = Some p /\ up_val p = Some (v, a).
End Spec.
