(** What the library takes a class to be when it is used as a method: its signature, its traits, the concepts that describe it, for which types
    it exists, what is put into the table of a type, and which plugin is inherited for it.
    A = include/anyany/anyany.hpp, D = include/anyany/noexport/anyany_details.hpp, C = include/anyany/noexport/common.hpp.
    Access control, volatile, variadic functions and default arguments are left out. *)
From stdpp Require Import list.
From Verif Require Import TypeListModel.

(** ** Types *)

(** object types are numbered; number 0 is int *)
Notation obj := nat (only parsing).
(** C 7 erased_self_t *)
Definition erased_self : obj := 0.
Inductive base : Set := BVoid | BObj (n : obj).
Inductive refk : Set := NoRef | LRef | RRef.
(** [const] B, B&, B&& *)
Record ty : Set := Ty { t_ref : refk; t_const : bool; t_base : base }.
Global Instance base_dec : EqDecision base. Proof. solve_decision. Defined.
Global Instance refk_dec : EqDecision refk. Proof. solve_decision. Defined.
Global Instance ty_dec : EqDecision ty. Proof. solve_decision. Defined.
Definition Void : ty := Ty NoRef false BVoid.
Definition is_void (t : ty) : bool := bool_decide (t_ref t = NoRef) && bool_decide (t_base t = BVoid).
(** T&& after reference collapsing *)
Definition add_rref (t : ty) : ty := match t_ref t with NoRef => Ty RRef (t_const t) (t_base t) | _ => t end.

(** a function type; [sg_params] begins with self *)
Record sig : Set := Sig { sg_ret : ty; sg_params : list ty; sg_noexcept : bool }.
(** what a member type of a class may be: a function type, a pointer to a non-static member function, any other type *)
Inductive mty : Set := MFun (s : sig) | MMem (s : sig) | MVar (t : ty).

(** which object types can be copied and moved, and conversions between different types *)
Record env := Env { e_copy : obj -> bool; e_move : obj -> bool; e_conv : ty -> ty -> bool }.

(** ** Classes *)

(** a function template with one template parameter and the name do_invoke.  [ov_accepts T]: substitution of T into the declaration succeeds
    and the constraints hold; [ov_auto]: the return type is deduced from the body; [ov_body T]: the body compiles.
    A template with further template parameters cannot be named by do_invoke<T>: it is one that accepts nothing *)
Record overload := Ov { ov_static : bool; ov_auto : bool; ov_accepts : obj -> bool; ov_sig : obj -> sig; ov_body : obj -> bool }.
(** the same for do_value, which has no parameters *)
Record getter := Getter { gt_auto : bool; gt_accepts : obj -> bool; gt_ret : obj -> ty; gt_body : obj -> bool }.
(** a class: std::is_empty, default_initializable, the member types signature_type and value_type, the templates do_invoke and do_value *)
Record mclass := MClass {
  mc_empty : bool; mc_default : bool;
  mc_sig : option mty; mc_invoke : list overload;
  mc_value : option mty; mc_do_value : list getter }.

(** ** Substitution *)
(** [Fails]: a substitution failure; [Hard]: an error outside the immediate context, or where there is no alternative *)
Inductive got (A : Type) := Got (a : A) | Fails | Hard.
Arguments Got {A} _. Arguments Fails {A}. Arguments Hard {A}.
Definition bind {A B} (x : got A) (f : A -> got B) : got B := match x with Got a => f a | Fails => Fails | Hard => Hard end.
(** where a substitution failure ends the translation *)
Definition demand {A} (x : got A) : got A := match x with Fails => Hard | x => x end.

(** overload resolution among templates whose parameters are int, bool and ... for the argument 0: all are substituted into, then the first of
    those that are left is the best *)
Fixpoint resolve {A} (cs : list (got A)) : got A :=
  match cs with
  | [] => Fails
  | c :: cs' => match c, resolve cs' with
                | Hard, _ | _, Hard => Hard
                | Got a, _ => Got a
                | Fails, r => r
                end
  end.

(** the template-id do_invoke<T>: it has to identify one function; a deduced return type needs the body *)
Definition name_invoke (M : mclass) (T : obj) : got overload :=
  match List.filter (fun o => ov_accepts o T) (mc_invoke M) with
  | [o] => if ov_auto o && negb (ov_body o T) then Hard else Got o
  | _ => Fails
  end.
(** the expression Method::template do_invoke<T>, which a non-static member function does not allow *)
Definition use_invoke (M : mclass) (T : obj) : got overload := bind (name_invoke M T) (fun o => if ov_static o then Got o else Fails).
(** the expression Method{}.template do_value<T>() *)
Definition call_value (M : mclass) (T : obj) : got getter :=
  if mc_default M then
    match List.filter (fun g => gt_accepts g T) (mc_do_value M) with
    | [g] => if gt_auto g && negb (gt_body g T) then Hard else Got g
    | _ => Fails
    end
  else Fails.

(** ** Signature and traits *)

(** D 214-220 get_method_signature(int), (bool), (...) *)
Definition sig_int (M : mclass) : got mty := match mc_sig M with Some m => Got m | None => Fails end.
Definition sig_bool (M : mclass) : got mty :=
  bind (name_invoke M erased_self)
    (fun o => Got (if ov_static o then MFun (ov_sig o erased_self) else MMem (ov_sig o erased_self))).
Definition sig_dots (M : mclass) : got mty := match mc_value M with Some m => Got m | None => Fails end.
(** D 222-223 signature_t *)
Definition signature_t (M : mclass) : got mty := resolve [sig_int M; sig_bool M; sig_dots M].

(** D 99, 111, 122 what a table stores: a pointer to R(const void* or void*, Args&&...) or a value *)
Inductive slot : Set := SFn (r : ty) (cself : bool) (ps : list ty) | SVal (m : mty).
(** D 92-123 any_method_traits; [tr_self] and [tr_args] are None for pseudomethods (void and aa_pseudomethod_tag) *)
Record traits := Traits { tr_self : option ty; tr_result : mty; tr_const : bool; tr_slot : slot; tr_args : option (list ty) }.
(** D 108-109, 119-120 *)
Definition is_const_self (s : ty) : bool := bool_decide (t_ref s = NoRef) || t_const s.
Definition any_method_traits (m : mty) : traits :=
  match m with
  | MFun (Sig r (self :: args) _) =>
      Traits (Some self) (MVar r) (is_const_self self) (SFn r (is_const_self self) (map add_rref args)) (Some args)
  | m => Traits None m true (SVal m) None
  end.
(** A 56-57 method_traits, A 59-66 result_t, args_list, is_const_method_v are its fields *)
Definition method_traits (M : mclass) : got traits := bind (signature_t M) (fun m => Got (any_method_traits m)).

(** ** Concepts *)

(** A 71-79 *)
Definition pseudomethod (M : mclass) : bool :=
  mc_empty M && mc_default M &&
  match mc_value M with
  | Some (MVar t) => bool_decide (t_ref t = NoRef)
  | Some (MFun _) | None => false
  | Some (MMem _) => true
  end.
(** A 81-85; the second requires is looked at only when the first is not satisfied *)
Definition regular_method (M : mclass) : got bool :=
  if mc_empty M && mc_default M then
    match mc_sig M with
    | Some (MFun _) => Got true
    | _ => match use_invoke M erased_self with Got _ => Got true | Fails => Got false | Hard => Hard end
    end
  else Got false.
(** A 87-88 *)
Definition simple_method (M : mclass) : got bool := bind (regular_method M) (fun b => Got (b || pseudomethod M)).
(** A 90-104 all_types_are_simple_methods, compound_method, method for a method or a list of them; a type_list is itself an empty class
    without members, so it is no simple method *)
Fixpoint all_simple (ts : list (TypeListModel.ty mclass)) : got bool :=
  match ts with
  | [] => Got true
  | t :: ts' => bind (match t with Leaf M => simple_method M | TL _ => Got false end) (fun b => if b then all_simple ts' else Got false)
  end.
Definition method_concept (t : TypeListModel.ty mclass) : got bool :=
  match t with Leaf M => simple_method M | TL ts => all_simple ts end.
(** A 106-107, for simple methods *)
Definition const_method (M : mclass) : got bool :=
  bind (simple_method M) (fun b => if b then bind (method_traits M) (fun t => Got (tr_const t)) else Got false).

(** ** exist_for *)

(** A 219-225 check_fn(int), (bool), (...) *)
Definition check_fn (T : obj) (M : mclass) : got bool :=
  resolve [bind (use_invoke M T) (fun _ => Got true); bind (call_value M T) (fun _ => Got true); Got false].
(** A 216-228 exist_for<X, Methods...>::value for a decayed X: every operand of the fold is instantiated *)
Fixpoint exist_for (T : obj) (Ms : list mclass) : got bool :=
  match Ms with
  | [] => Got true
  | M :: Ms' => match check_fn T M, exist_for T Ms' with
                | Hard, _ | _, Hard => Hard
                | Got b, Got b' => Got (b && b')
                | _, _ => Fails
                end
  end.

(** ** Tables *)

Section Tables.
  Context (E : env).

  (** initialisation of a [p] from an expression: an lvalue for an lvalue reference, an xvalue for an rvalue reference, else a prvalue *)
  Definition can_init (a p : ty) : bool :=
    if bool_decide (t_base a = t_base p) then
      match t_base p with
      | BVoid => false
      | BObj n =>
          match t_ref p, t_ref a with
          | NoRef, NoRef => true
          | NoRef, RRef => if t_const a then e_copy E n else e_move E n
          | NoRef, LRef => e_copy E n
          | LRef, LRef => implb (t_const a) (t_const p)
          | LRef, _ => t_const p
          | RRef, LRef => false
          | RRef, _ => implb (t_const a) (t_const p)
          end
      end
    else e_conv E a p.
  (** return e; in a function that returns [r] *)
  Definition can_return (a r : ty) : bool := if is_void r then is_void a else can_init a r.

  (** an entry of the table of T: the function invoker_for<T, Method>::value, which calls the do_invoke<T> [o] with an lvalue of T that is
      const or not; or the value of do_value<T> *)
  Inductive entry := ECall (o : overload) (cself : bool) | EValue (g : getter).

  (** do_invoke<T>(args...): the functions whose parameters the arguments can initialise; one of several that are viable is not chosen *)
  Definition viable (M : mclass) (T : obj) (args : list ty) : list overload :=
    List.filter (fun o => ov_accepts o T && bool_decide (length (sg_params (ov_sig o T)) = length args)
                          && forallb (fun '(a, p) => can_init a p) (zip args (sg_params (ov_sig o T)))) (mc_invoke M).
  (** A 177-191 invoker_for<T, Method, type_list<Args...>>::value; the function returns result_t<Method> and is instantiated when its
      address is put into the table.  do_invoke<T> with self an lvalue of const T or T: *)
  Definition call_invoke (M : mclass) (T : obj) (cself : bool) (r : ty) (args : list ty) : got entry :=
    match viable M T (Ty LRef cself (BObj T) :: map add_rref args) with
    | [o] => if ov_static o && ov_body o T && can_return (sg_ret (ov_sig o T)) r then Got (ECall o cself) else Hard
    | _ => Hard
    end.
  Definition invoker_fn (M : mclass) (T : obj) (tr : traits) (self r : ty) (args : list ty) : got entry :=
    if bool_decide (t_ref self = LRef) then call_invoke M T (tr_const tr) r args
    else if e_copy E T then call_invoke M T true r args
    else Hard.
  (** A 195-209 invoker_for<T, Method, aa_pseudomethod_tag>::value, whose operator& gives do_value<T>(); the member of the table (D 30-47
      value_in_tuple, tuple_base) is initialised from it *)
  Definition invoker_value (M : mclass) (T : obj) (v : mty) : got entry :=
    match v with
    | MVar t =>
        if bool_decide (t_ref t = NoRef) && negb (is_void t) then
          match demand (call_value M T) with
          | Got g => if gt_body g T && can_init (add_rref (gt_ret g T)) (Ty NoRef false (t_base t)) then Got (EValue g) else Hard
          | Fails | Hard => Hard
          end
        else Hard
    | MFun _ | MMem _ => Hard
    end.
  (** A 174-175 which specialisation of invoker_for is meant *)
  Definition invoker_for (T : obj) (M : mclass) : got entry :=
    match demand (method_traits M) with
    | Got tr => match tr_self tr, tr_result tr, tr_args tr with
                | Some self, MVar r, Some args => invoker_fn M T tr self r args
                | _, v, _ => invoker_value M T v
                end
    | Fails | Hard => Hard
    end.
  (** A 452-454 vtable_for<T, Methods...> *)
  Fixpoint vtable_for (T : obj) (Ms : list mclass) : got (list entry) :=
    match Ms with
    | [] => Got []
    | M :: Ms' => bind (invoker_for T M) (fun e => bind (vtable_for T Ms') (fun es => Got (e :: es)))
    end.

  (** what the body of do_invoke has as self: the object itself, as const or not; a copy of it; something converted from it *)
  Inductive seen : Set := SeesObject (c : bool) | SeesCopy | SeesConverted.
  Definition self_seen (T : obj) (e : entry) : option seen :=
    match e with
    | EValue _ => None
    | ECall o _ =>
        match sg_params (ov_sig o T) with
        | p :: _ => Some (if bool_decide (t_base p = BObj T) then
                            match t_ref p with NoRef => SeesCopy | _ => SeesObject (t_const p) end
                          else SeesConverted)
        | [] => None
        end
    end.
End Tables.

(** ** Plugins *)
Section Plugins.
  Context {Q : Type} {EQ : EqDecision Q}.
  (** what a method declares: a class template plugin that accepts the any or not, a class plugin, nothing *)
  Inductive plugin_decl := PTemplate (p : option Q) | PClass (p : Q) | PNone.
  (** aa::plugin<Any, Method>: specialised by the user by a class, which may have a member type named type, or the primary template *)
  Record user_plugin := UserPlugin { up_class : Q; up_type : option (option Q) }.
  (** D 202-207 get_plugin(int), (bool), (...); None is void *)
  Definition get_plugin (d : plugin_decl) : got (option Q) :=
    resolve [match d with PTemplate (Some p) => Got (Some p) | _ => Fails end;
             match d with PClass p => Got (Some p) | _ => Fails end;
             Got None].
  (** A 48-49 the primary template has the member type of type_identity (D 209-212); A 512-524 plugin_t, select_plugin(int), (...) *)
  Definition plugin_t (u : option user_plugin) (d : plugin_decl) : got (option Q) :=
    match u with
    | Some s => resolve [match up_type s with Some t => Got t | None => Fails end; Got (Some (up_class s))]
    | None => resolve [get_plugin d; Fails]
    end.
  (** A 526-528 construct_interface *)
  Fixpoint plugins (ms : list (option user_plugin * plugin_decl)) : got (list (option Q)) :=
    match ms with
    | [] => Got []
    | (u, d) :: ms' => bind (plugin_t u d) (fun p => bind (plugins ms') (fun ps => Got (p :: ps)))
    end.
  Definition bases (base_of : Q -> Q -> bool) (ms : list (option user_plugin * plugin_decl)) : got (list Q) :=
    bind (plugins ms) (fun ps => Got (construct_interface base_of ps)).
End Plugins.
