(** Model: classes whose members are any_with<...>, with the special members the compiler writes.
    Source: A = include/anyany/anyany.hpp.  What an implicit special member does is prescribed by the C++ standard (class.copy.ctor,
    class.copy.assign, class.dtor, except.ctor) and written here in terms of the operations of AnyModel; an object of such a class is the list of
    the names of its members in the order of declaration, the members may have different method lists.  Members that are no anys are not modelled. *)
From stdpp Require Import gmap list.
From Verif Require Import TypeListModel AnyModel.

Section Env.
  Context (E : env).
  (** S(const S&): each member is copied (A 1198-1214); when one throws, those made before are destroyed in reverse order *)
  Fixpoint s_copy (mss : list (list method)) (news olds : list nat) : M unit :=
    match mss, news, olds with
    | ms :: mss, n :: ns, o :: os => copy_ctor E n o ms ;;; on_exn (s_copy mss ns os) (dtor E n)
    | _, _, _ => retM tt
    end.
  (** S(S&&): each member is moved (A 1215-1218) *)
  Fixpoint s_move (news olds : list nat) : M unit :=
    match news, olds with
    | n :: ns, o :: os => move_ctor E n o ;;; on_exn (s_move ns os) (dtor E n)
    | _, _ => retM tt
    end.
  (** ~S(): the last member first (A 1192-1194) *)
  Fixpoint s_dtor (l : list nat) : M unit :=
    match l with [] => retM tt | i :: tl => s_dtor tl ;;; dtor E i end.
  (** S& operator=(const S&): each member is assigned (A 1253-1268); [t] is the temporary of that operator.  What is assigned before an exception stays *)
  Fixpoint s_copy_assign (is js : list nat) (t : nat) : M unit :=
    match is, js with
    | i :: is, j :: js => copy_assign E i j t ;;; s_copy_assign is js t
    | _, _ => retM tt
    end.
  (** S& operator=(S&&): each member is assigned (A 1219-1251) *)
  Fixpoint s_move_assign (is js : list nat) : M unit :=
    match is, js with
    | i :: is, j :: js => move_assign E i j ;;; s_move_assign is js
    | _, _ => retM tt
    end.
  (** S tmp(other); *this = std::move(tmp); *)
  Definition s_assign_by_copy (mss : list (list method)) (is js ts : list nat) : M unit :=
    s_copy mss ts js ;;; on_exn (s_move_assign is ts) (s_dtor ts) ;;; s_dtor ts.
  (** std::swap(a, b): S tmp(std::move(a)); a = std::move(b); b = std::move(tmp); *)
  Definition s_swap (is js ts : list nat) : M unit :=
    s_move ts is ;;; on_exn (s_move_assign is js ;;; s_move_assign js ts) (s_dtor ts) ;;; s_dtor ts.
End Env.
