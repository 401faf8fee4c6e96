(** Classes used as methods, for the examples of PropMethod.v. *)
From stdpp Require Import list.
From Verif Require Import MethodModel MethodSpec.

(** types: 0 int, 1 float, 2 std::string, 5 cannot be copied, 6 can neither be copied nor moved, 7 any other *)
Definition ex_env : env := Env (fun n => negb (n =? 5) && negb (n =? 6)) (fun n => negb (n =? 6)) (fun _ _ => false).
Definition val (n : nat) : ty := Ty NoRef false (BObj n).
Definition rref (n : nat) : ty := Ty RRef false (BObj n).
(** tests/test_anyany.cpp 557-567 foox: static float do_invoke(T self) *)
Definition foox : written := Written false (val 1) NoRef false [] false (fun _ => true) (fun T => negb (T =? 0)).
(** 569-574 barx: static std::string do_invoke(T& self, int&& f, std::string&& s) *)
Definition barx : written := Written false (val 2) LRef false [rref 0; rref 2] false (fun _ => true) (fun T => negb (T =? 0)).
(** A 344-350 hash: const T&, constrained, with signature_type *)
Definition hash : written := Written true (val 3) LRef true [] false (fun T => T =? 2) (fun _ => true).
(** the same without signature_type and not for int *)
Definition unfound : written := Written false (val 3) LRef true [] false (fun T => T =? 2) (fun _ => true).
(** static void do_invoke(T&& self) *)
Definition consume : written := Written false Void RRef false [] false (fun _ => true) (fun _ => true).
(** static void do_invoke(const T& self, U arg) with U that cannot be moved *)
Definition takes_pinned : written := Written false Void LRef true [val 6] false (fun _ => true) (fun _ => true).
(** signature_type and a static auto do_invoke(const T& self) { return self.foo(); } *)
Definition auto_method : mclass :=
  MClass true true (Some (MFun (Sig (val 1) [Ty LRef true (BObj 0)] false)))
         [Ov true true (fun _ => true) (fun T => Sig (val 1) [Ty LRef true (BObj T)] false) (fun T => negb (T =? 0))] None [].
(** signature_type is void(const int&), do_invoke takes T& *)
Definition mismatched : mclass :=
  MClass true true (Some (MFun (Sig Void [Ty LRef true (BObj 0)] false)))
         [Ov true false (fun _ => true) (fun T => Sig Void [Ty LRef false (BObj T)] false) (fun _ => true)] None [].
(** signature_type is void(const int&); do_invoke(const T&) and do_invoke(T&) *)
Definition overloaded : mclass :=
  MClass true true (Some (MFun (Sig Void [Ty LRef true (BObj 0)] false)))
         [Ov true false (fun _ => true) (fun T => Sig Void [Ty LRef true (BObj T)] false) (fun _ => true);
          Ov true false (fun _ => true) (fun T => Sig Void [Ty LRef false (BObj T)] false) (fun _ => true)] None [].
(** a value for every type, and a function for int only *)
Definition two_faced : mclass :=
  MClass true true None
         [Ov true false (fun T => T =? 0) (fun T => Sig Void [Ty LRef true (BObj T)] false) (fun _ => true)]
         (Some (MVar (val 1))) [Getter false (fun _ => true) (fun _ => val 1) (fun _ => true)].
(** A 233-254 destroy: a function pointer for types with a destructor that does not throw *)
Definition destroy (d : nat -> bool) : mclass := value_class 9 d (fun _ => true).
(** using signature_type = float(); a function without self *)
Definition selfless : mclass := MClass true true (Some (MFun (Sig (val 1) [] false)))
  [Ov true false (fun _ => true) (fun _ => Sig (val 1) [] false) (fun _ => true)] None [].
(** using value_type = void *)
Definition valueless : mclass := MClass true true None [] (Some (MVar Void)) [Getter false (fun _ => true) (fun _ => Void) (fun _ => true)].
(** a do_invoke that is not static, for all types; signature_type and do_invoke that differ in what they return *)
Definition unstatic : mclass := MClass true true None
  [Ov false false (fun _ => true) (fun T => Sig (val 1) [Ty LRef true (BObj T)] false) (fun _ => true)] None [].
