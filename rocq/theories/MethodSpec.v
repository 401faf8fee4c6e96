(** Methods as the README and the comments in the headers tell to write them, and what one expects of them. *)
From stdpp Require Import list.
From Verif Require Import MethodModel.

(** template <typename T> requires accepts<T> static R do_invoke(T self / [const] T& self / [const] T&& self, Args... args) [noexcept] { body },
    with or without [using signature_type = R(int / [const] int& / [const] int&&, Args...) [noexcept];] *)
Record written := Written {
  wr_sig : bool; wr_ret : ty; wr_ref : refk; wr_const : bool; wr_args : list ty; wr_noexcept : bool;
  wr_accepts : nat -> bool; wr_body : nat -> bool }.
Definition self_param (w : written) (T : nat) : ty := Ty (wr_ref w) (wr_const w) (BObj T).
Definition signature_for (w : written) (T : nat) : sig := Sig (wr_ret w) (self_param w T :: wr_args w) (wr_noexcept w).
Definition method_class (w : written) : mclass :=
  MClass true true (if wr_sig w then Some (MFun (signature_for w 0)) else None)
         [Ov true false (wr_accepts w) (signature_for w) (wr_body w)] None [].
(** using value_type = V; template <typename T> requires accepts<T> static consteval V do_value() { body } *)
Definition value_class (v : nat) (accepts body : nat -> bool) : mclass :=
  MClass true true None [] (Some (MVar (Ty NoRef false (BObj v)))) [Getter false accepts (fun _ => Ty NoRef false (BObj v)) body].

(** the signature can be found: it is declared, or do_invoke can be named with int *)
Definition signature_found (w : written) : Prop := wr_sig w = true \/ wr_accepts w 0 = true.
(** a parameter passed by value is initialised by moving from the argument *)
Definition passable (E : env) (a : ty) : Prop :=
  exists n, t_base a = BObj n /\ (t_ref a = NoRef -> (if t_const a then e_copy E n else e_move E n) = true).
(** do_invoke can be called with an object that has to stay where it is *)
Definition self_passable (E : env) (w : written) (T : nat) : Prop := wr_ref w = LRef \/ (wr_ref w = NoRef /\ e_copy E T = true).

(** the plugin that a method contributes *)
Inductive contributes {Q} : option (@user_plugin Q) -> @plugin_decl Q -> option Q -> Prop :=
| FromSpecialisation q d : contributes (Some (UserPlugin q None)) d (Some q)
| FromSpecialisationType q t d : contributes (Some (UserPlugin q (Some t))) d t
| FromTemplate q : contributes None (PTemplate (Some q)) (Some q)
| FromClass q : contributes None (PClass q) (Some q)
| Nothing : contributes None PNone None
| TemplateRefuses : contributes None (PTemplate None) None.

(** how an argument declared as [a] reaches do_invoke: Args&& *)
Definition forwarded (a p : ty) : Prop :=
  t_base p = t_base a /\ t_const p = t_const a /\ t_ref p = match t_ref a with LRef => LRef | _ => RRef end.
(** the only one in a list with a property *)
Definition sole {A} (P : A -> bool) (l : list A) (x : A) : Prop :=
  exists l1 l2, l = l1 ++ x :: l2 /\ P x = true /\ forall y, In y (l1 ++ l2) -> P y = false.
(** the one function do_invoke for T, static or not; the one do_value *)
Definition invokes (M : mclass) (T : nat) (o : overload) : Prop := sole (fun o => ov_accepts o T) (mc_invoke M) o.
Definition yields (M : mclass) (T : nat) (g : getter) : Prop := mc_default M = true /\ sole (fun g => gt_accepts g T) (mc_do_value M) g.
(** looking at do_invoke or do_value for T does not compile a body that does not: deduced return types *)
Definition safe_for (M : mclass) (T : nat) : Prop :=
  (forall o, In o (mc_invoke M) -> ov_auto o = true -> ov_body o T = true) /\ (forall g, In g (mc_do_value M) -> gt_auto g = true -> gt_body g T = true).
(** types of which the table can have a member *)
Definition object_type (m : mty) : Prop := match m with MFun _ => False | MMem _ => True | MVar t => t_ref t = NoRef end.
