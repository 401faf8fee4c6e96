(** Overload resolution among functions whose parameters are references: which of the functions declared by visit1/visit2 an erased visitor calls
    (U = include/anyany/utility.hpp), which insert of a variant swarm is called (S = include/anyany/variant_swarm.hpp,
    SD = include/anyany/noexport/variant_swarm_details.hpp), which classes are accepted as erased visitors.
    The rules are those of the language ([over.best.ics], [over.ics.rank], [over.match.best]).  Left out: volatile, braced lists, conversions
    through conversion functions returning references, ranking of two uses of the same conversion function. *)
From stdpp Require Import list.

(** a parameter's type: T&, const T&, T&& or const T&&; T is named by a number *)
Record param : Type := Param { p_type : nat; p_const : bool; p_rref : bool }.
(** an argument: an expression of (possibly const) type [a_type], lvalue or not *)
Record arg : Type := Arg { a_type : nat; a_const : bool; a_lvalue : bool }.
Global Instance param_dec : EqDecision param. Proof. solve_decision. Defined.

(** conversions that create a temporary: promotion, other standard conversion, user-defined conversion *)
Inductive conv_rank : Type := Promotion | Conversion | UserDefined.
(** the classes: [base d b]: b is a (unique, accessible) base of d; [conv a t]: how a value of type a converts to an unrelated type t *)
Record classes : Type := Classes { base : nat -> nat -> bool; conv : nat -> nat -> option conv_rank }.

Section Overload.
  Context (K : classes).

  Definition rank_of (r : conv_rank) : nat := match r with Promotion => 1 | Conversion => 2 | UserDefined => 3 end.
  (** the rank of binding the parameter to the argument: identity 0, derived to base 2, or that of the conversion; None: impossible *)
  Definition bind_rank (p : param) (a : arg) : option nat :=
    if (a_type a =? p_type p) || base K (a_type a) (p_type p)
    then if implb (a_const a) (p_const p) && (if p_rref p then negb (a_lvalue a) else a_lvalue a || p_const p)
         then Some (if a_type a =? p_type p then 0 else 2) else None
    else match conv K (a_type a) (p_type p) with
         | Some r => if p_rref p || p_const p then Some (rank_of r) else None
         | None => None
         end.
  (** is binding p better than binding q: rank; bases; T&& for rvalues (and temporaries); less const *)
  Definition better (a : arg) (p q : param) : bool :=
    match bind_rank p a, bind_rank q a with
    | Some m, Some n =>
        (m <? n) || ((m =? n) &&
        (if (m =? 3) && negb (p_type p =? p_type q) then false
         else if base K (p_type p) (p_type q) then true
         else if base K (p_type q) (p_type p) then false
         else if xorb (p_rref p) (p_rref q) then p_rref p
         else (p_type p =? p_type q) && negb (p_const p) && p_const q))
    | _, _ => false
    end.

  (** a function is viable if every parameter can be bound, better if no parameter is worse and one is better *)
  Definition viable (f : list param) (args : list arg) : bool :=
    (length f =? length args) && forallb (fun pa => if bind_rank (fst pa) (snd pa) then true else false) (zip f args).
  Definition better_fn (f g : list param) (args : list arg) : bool :=
    let l := zip args (zip f g) in
    forallb (fun x => negb (better (fst x) (snd (snd x)) (fst (snd x)))) l && existsb (fun x => better (fst x) (fst (snd x)) (snd (snd x))) l.
  Inductive resolution : Type := Selected (i : nat) | NoViable | Ambiguous.
  (** the candidates with their places *)
  Definition candidates (fs : list (list param)) (args : list arg) : list (nat * list param) :=
    filter (fun x => viable (snd x) args) (imap pair fs).
  Definition resolve (fs : list (list param)) (args : list arg) : resolution :=
    let c := candidates fs args in
    match c with
    | [] => NoViable
    | _ => match filter (fun x => forallb (fun y => (fst x =? fst y) || better_fn (snd x) (snd y) args) c) c with
           | [x] => Selected (fst x)
           | _ => Ambiguous
           end
    end.

  (** ** Erased visitors *)
  (** a type in an interface: T or const T *)
  Notation vtype := (nat * bool)%type.
  (** U 204-206, 241-244: the parameters of anyany_adl_visit1, anyany_adl_visit2, without the visitor, the same for all *)
  Definition visit_params (Ts : list vtype) : list param := map (fun T => Param (fst T) (snd T) false) Ts.
  (** U 205, 242: a pointer to the argument is passed as void*: does not compile for const types *)
  Definition body_compiles (Ts : list vtype) : bool := forallb (fun T => negb (snd T)) Ts.
  (** U 157-172: operator() and visit are templates without constraints: what std::invocable and requires see for one or two arguments *)
  Definition call_declared (args : list arg) : bool := match args with [_] | [_; _] => true | _ => false end.
  (** a call x(args...) or x.visit(args...) on an erased visitor with these overloads: the overload called (U 159-171, 204, 241: forwarded
      with their category); None: does not compile *)
  Definition visitor_call (overloads : list (list vtype)) (args : list arg) : option (list vtype) :=
    if call_declared args
    then match resolve (map visit_params overloads) args with
         | Selected i => match overloads !! i with Some Ts => if body_compiles Ts then Some Ts else None | None => None end
         | _ => None
         end
    else None.
  (** U 210-212, 248-262 the overloads of visitor_interface<Ts...> and visitor2_interface<Ts, Us> *)
  Definition overloads1 (Ts : list vtype) : list (list vtype) := map (fun T => [T]) Ts.
  Definition overloads2 (Ts Us : list vtype) : list (list vtype) := concat (map (fun T => map (fun U => [T; U]) Us) Ts).

  (** ** Insertion into a swarm *)
  (** SD 42-47 insert(T&&), insert(const T&) of each type, brought together by SD 66-70 *)
  Definition insert_params (Ts : list nat) : list (list param) := concat (map (fun T => [[Param T false true]; [Param T true false]]) Ts).
  (** swarm.insert(arg): the type inserted and whether it is moved (SD 43) or copied (SD 46) from the argument or from a temporary *)
  Definition insert_call (Ts : list nat) (a : arg) : option (nat * bool) :=
    match resolve (insert_params Ts) [a] with
    | Selected i => match insert_params Ts !! i with Some [p] => Some (p_type p, p_rref p) | _ => None end
    | _ => None
    end.
  (** S 244-249 inserter(swarm): called by std::visit on a variant, compiled for each alternative; the variant is an lvalue or not, const or not *)
  Definition inserter_compiles (Ts alternatives : list nat) (c lv : bool) : bool :=
    forallb (fun A => if insert_call Ts (Arg A c lv) then true else false) alternatives.
End Overload.

(** ** Which classes are accepted as erased visitors *)
(** a callable: a class, with what a call of a const lvalue and of a const rvalue with these arguments does ([None]: does not compile,
    [Some true]: returns aa::noop), or a pointer to member, with what std::invoke does *)
Inductive callable : Type := CClass (l r : option bool) | CMember (res : option bool).
(** f(args...) and std::invoke(f, args...), f a const lvalue or rvalue *)
Definition call_expr (f : callable) (lv : bool) : option bool := match f with CClass l r => if lv then l else r | CMember _ => None end.
Definition std_invoke (f : callable) (lv : bool) : option bool := match f with CClass l r => if lv then l else r | CMember res => res end.
Inductive vslot : Type := NotAMethod | HardError | NoopFn | VisitFn.
(** U 193-200, 230-237 do_value<Self>: constrained on std::invocable<const Self, T&...>, an rvalue; then invoke_result_t<const Self&, T&...>;
    U 183-186, 219-223 visit_fn: a call expression of a const lvalue *)
Definition do_value (f : callable) : vslot :=
  match std_invoke f false with
  | None => NotAMethod
  | Some _ => match std_invoke f true with
              | None => HardError
              | Some true => NoopFn
              | Some false => match call_expr f true with Some _ => VisitFn | None => HardError end
              end
  end.
