(** What type_switch should do. *)
From stdpp Require Import gmap list.
From Verif Require Import AnyModel AnyInv AnyHistory AnyFacts DescModel PolyModel PolySpec VisitModel VisitSpec SwitchModel.

(** the chain as a list of (type, function), in order *)
Definition arms (c : scase) : list (nat * nat) := match c with SCase T f => [(T, f)] | SCases Ts f => map (fun T => (T, f)) Ts end.
Definition all_arms (l : list scase) : list (nat * nat) := concat (map arms l).
(** f is the function of the first case for T *)
Definition first_for (T f : nat) (l : list (nat * nat)) : Prop := exists a b, l = a ++ (T, f) :: b /\ ~ In T (map fst a).
(** the chain compiles: cases<Ts...> has distinct types *)
Definition distinct_cases (l : list scase) : Prop := forall Ts f, In (SCases Ts f) l -> NoDup Ts.

(** the value the switch is on: an any or a reference view *)
Definition subject_arg (s : ssubject) (a : varg) : Prop :=
  match s with
  | SubAny i c => a = VAny i c
  | SubRef p => a = VPoly p /\ (pv_k p = KRef \/ pv_k p = KCRef)
  | SubPtr _ => False
  end.

(** run f and keep its result, if there is one to keep *)
Definition kept (void : bool) (r : res nat) : res (option nat) :=
  match r with Ok x w => Ok (Some (if void then 0 else x)) w | Exn w => Exn w | UB u => UB u | Term => Term end.
