(** How arguments travel from a call of invoke<Method>(x, args...), of a plugin's member function or of operator() to the body of the method.
    A = include/anyany/anyany.hpp, D = include/anyany/noexport/anyany_details.hpp, MA = include/anyany/anyany_macro.hpp.
    The objects that are passed are of one type whose copy and move constructors may throw; which pointer is called is not modelled here. *)
From stdpp Require Import gmap list.

(** ** Objects and calls, as in the language *)
(** a parameter declared as T, T& / const T&, T&& / const T&& *)
Inductive pkind := PVal | PLref (c : bool) | PRref (c : bool).
(** an argument: an lvalue or xvalue that denotes an object, or a prvalue that would initialise one with a value *)
Inductive arg := ALv (o : nat) (c : bool) | AXv (o : nat) (c : bool) | APr (v : nat).
Record store := Store { s_obj : gmap nat nat; s_next : nat; s_tick : nat; s_copies : nat }.
(** [te_throws]: which copy or move constructor throws; [te_left v]: the value of a moved-from object that had v;
    [te_rtl]: parameters are initialised from right to left *)
Record tenv := TEnv { te_throws : nat -> bool; te_left : nat -> nat; te_rtl : bool }.
Inductive cr (A : Type) := ROk (a : A) (s : store) | RExn (s : store) | RUB | RIll.
Arguments ROk {A} _ _. Arguments RExn {A} _. Arguments RUB {A}. Arguments RIll {A}.

(** what the name of a parameter denotes *)
Record param := Param { p_kind : pkind; p_obj : nat; p_const : bool }.

Definition make (v : nat) (s : store) : nat * store :=
  (s_next s, Store (<[s_next s := v]> (s_obj s)) (S (s_next s)) (s_tick s) (s_copies s)).
Definition ticked (s : store) : store := Store (s_obj s) (s_next s) (S (s_tick s)) (s_copies s).
Definition copied (s : store) : store := Store (s_obj s) (s_next s) (s_tick s) (S (s_copies s)).
Definition put (o v : nat) (s : store) : store := Store (<[o := v]> (s_obj s)) (s_next s) (s_tick s) (s_copies s).

Section Calls.
  Context (E : tenv).

  (** copy constructor *)
  Definition copy_obj (o : nat) (s : store) : cr nat :=
    match s_obj s !! o with
    | None => RUB
    | Some v => if te_throws E (s_tick s) then RExn (ticked s) else let '(n, s') := make v (copied (ticked s)) in ROk n s'
    end.
  (** move constructor; a throwing one has not changed the source *)
  Definition move_obj (o : nat) (s : store) : cr nat :=
    match s_obj s !! o with
    | None => RUB
    | Some v => if te_throws E (s_tick s) then RExn (ticked s) else let '(n, s') := make v (put o (te_left E v) (ticked s)) in ROk n s'
    end.
  Definition made (v : nat) (s : store) : cr nat := let '(n, s') := make v s in ROk n s'.

  (** initialisation of a parameter: the parameter and the object (parameter or temporary) that lives as long as the call *)
  Definition init1 (k : pkind) (a : arg) (s : store) : cr (param * option nat) :=
    let own r := match r with
                 | ROk n s' => ROk (Param PVal n false, Some n) s'
                 | RExn s' => RExn s' | RUB => RUB | RIll => RIll end in
    let temp k' c r := match r with
                 | ROk n s' => ROk (Param k' n c, Some n) s'
                 | RExn s' => RExn s' | RUB => RUB | RIll => RIll end in
    match k, a with
    | PVal, ALv o _ => own (copy_obj o s)
    | PVal, AXv o c => own (if c then copy_obj o s else move_obj o s)
    | PVal, APr v => own (made v s)
    | PLref c, ALv o c' => if c' && negb c then RIll else ROk (Param k o c, None) s
    | PLref true, AXv o _ => ROk (Param k o true, None) s
    | PLref true, APr v => temp k true (made v s)
    | PLref false, _ => RIll
    | PRref c, AXv o c' => if c' && negb c then RIll else ROk (Param k o c, None) s
    | PRref c, APr v => temp k c (made v s)
    | PRref c, ALv _ _ => RIll
    end.

  Definition kill (o : nat) (s : store) : option store :=
    match s_obj s !! o with
    | Some _ => Some (Store (delete o (s_obj s)) (s_next s) (s_tick s) (s_copies s))
    | None => None
    end.
  Fixpoint kills (os : list nat) (s : store) : option store :=
    match os with [] => Some s | o :: os => match kill o s with Some s' => kills os s' | None => None end end.
  Definition finish {A} (os : list nat) (r : cr A) : cr A :=
    match r with
    | ROk a s => match kills os s with Some s' => ROk a s' | None => RUB end
    | RExn s => match kills os s with Some s' => RExn s' | None => RUB end
    | RUB => RUB | RIll => RIll
    end.
  (** parameters in the order given; the objects made, the last one first.  When one initialisation throws, the objects
      already made are destroyed *)
  Fixpoint inits (ks : list pkind) (args : list arg) (os : list nat) (s : store) : cr (list param * list nat) :=
    match ks, args with
    | [], [] => ROk ([], os) s
    | k :: ks, a :: args =>
        match init1 k a s with
        | ROk (p, o) s' =>
            match inits ks args (option_list o ++ os) s' with
            | ROk (ps, os') s'' => ROk (p :: ps, os') s''
            | r => r
            end
        | RExn s' => finish os (RExn s')
        | RUB => RUB | RIll => RIll
        end
    | _, _ => RIll
    end.
  (** a call of a function with parameters [ks] *)
  Definition frame {A} (ks : list pkind) (args : list arg) (body : list param -> store -> cr A) (s : store) : cr A :=
    let r := if te_rtl E
             then match inits (reverse ks) (reverse args) [] s with
                  | ROk (ps, os) s' => ROk (reverse ps, os) s'
                  | r => r end
             else inits ks args [] s in
    match r with
    | ROk (ps, os) s' => finish os (body ps s')
    | RExn s' => RExn s' | RUB => RUB | RIll => RIll
    end.

  (** ** The library *)
  (** static_cast<K&&>(arg) where arg is a parameter and K one of Args... *)
  Definition cast (k : pkind) (p : param) : arg :=
    match k with
    | PVal => AXv (p_obj p) (p_const p)
    | PLref c => ALv (p_obj p) (c || p_const p)
    | PRref c => AXv (p_obj p) (c || p_const p)
    end.
  Definition casts (ks : list pkind) (ps : list param) : list arg := zip_with cast ks ps.
  (** D 111, 122 type_erased_signature_type: R( * )(self, Args&&...) *)
  Definition amp (k : pkind) : pkind := match k with PVal => PRref false | k => k end.
  (** the parameters that a forwarding reference pack gets by deduction *)
  Definition deduced (a : arg) : pkind :=
    match a with ALv _ c => PLref c | AXv _ c => PRref c | APr _ => PRref false end.

  Section Path.
    Context {A : Type} (ks ds : list pkind) (body : list param -> store -> cr A).
    (** A 174-191 invoker_for::value(self, Args&&... args) calls Method::do_invoke<T>(self, static_cast<Args&&>(args)...);
        [do_invoke]: the call of that function with the rest of its parameters *)
    Definition invoker_value (do_invoke : list arg -> store -> cr A) (args : list arg) : store -> cr A :=
      frame (map amp ks) args (fun ps => do_invoke (casts ks ps)).
    (** A 387-391 vtable::invoke(Args&&... args): the entry called with std::forward<Args>(args)... *)
    Definition vtable_invoke (do_invoke : list arg -> store -> cr A) (args : list arg) : store -> cr A :=
      frame (map deduced args) args (fun ps => invoker_value do_invoke (casts (map deduced args) ps)).
    (** A 1013-1057 invoke_fn::operator()(x, Args... args) passes static_cast<Args&&>(args)... *)
    Definition invoke_op (do_invoke : list arg -> store -> cr A) (args : list arg) : store -> cr A :=
      frame ks args (fun ps => vtable_invoke do_invoke (casts ks ps)).
    (** a method written by hand: do_invoke has parameters [ds] and is the body *)
    Definition direct_call : list arg -> store -> cr A := invoke_op (fun args => frame ds args body).
    (** MA 87-104 the member function made by anyany_method(NAME, ...): do_invoke (MA 111-115) has the parameters Args... *)
    Definition method_call (args : list arg) : store -> cr A :=
      frame ks args (fun ps => invoke_op (fun args => frame ds args body) (casts ks ps)).
    (** A 1926-1950 call: operator()(Args... args) of the plugin; do_invoke(self, Args... args) calls self(static_cast<Args&&>(args)...),
        which has the parameters [ds] *)
    Definition call_do_invoke (args : list arg) : store -> cr A := frame ks args (fun ps => frame ds (casts ks ps) body).
    Definition call_call (args : list arg) : store -> cr A := frame ks args (fun ps => invoke_op call_do_invoke (casts ks ps)).
  End Path.
End Calls.

(** ** Which overload of invoke is chosen *)
(** what invoke<Method> is given: an any (const or not, lvalue or rvalue), poly_ref, const_poly_ref, stateful::ref, stateful::cref *)
Inductive operand := XAny (c rv : bool) | XRef | XCref | XSRef | XSCref.
(** the overloads of invoke_fn::operator(): A 1020-1024, 1026-1031, 1035-1038, 1039-1043, 1047-1050, 1051-1055 *)
Inductive overload := OvForward | OvConst | OvRef | OvCref | OvSRef | OvSCref.
Global Instance overload_dec : EqDecision overload. Proof. solve_decision. Defined.
Definition overloads : list overload := [OvForward; OvConst; OvRef; OvCref; OvSRef; OvSCref].
(** the type of the first parameter after deduction, None: deduction or the constraint fails.
    is_any (A 211) looks at the decayed type, so it also accepts const and reference types *)
Inductive reftype := RT (lref : bool) (c : bool) | ByValue.
Global Instance reftype_dec : EqDecision reftype. Proof. solve_decision. Defined.
Definition deduces (o : overload) (x : operand) : option reftype :=
  match o, x with
  | OvForward, XAny c rv => Some (RT (negb rv) c)
  | OvConst, XAny _ _ => Some (RT true true)
  | OvRef, XRef => Some ByValue
  | OvCref, XCref => Some ByValue
  | OvSRef, XSRef => Some (RT true true)
  | OvSCref, XSCref => Some (RT true true)
  | _, _ => None
  end.
(** [over.ics.rank]: an rvalue binds better to an rvalue reference; then the less const reference is better;
    [temp.deduct.partial]: otherwise const U& is more specialised than U&& *)
Definition better (rv : bool) (o1 : overload) (t1 : reftype) (o2 : overload) (t2 : reftype) : bool :=
  match t1, t2 with
  | RT l1 c1, RT l2 c2 =>
      if rv && negb (Bool.eqb l1 l2) then negb l1
      else if negb (Bool.eqb c1 c2) then negb c1
      else match o1, o2 with OvConst, OvForward => true | _, _ => false end
  | _, _ => false
  end.
Definition is_rvalue (x : operand) : bool := match x with XAny _ rv => rv | _ => false end.
Definition viable (x : operand) : list (overload * reftype) :=
  omap (fun o => match deduces o x with Some t => Some (o, t) | None => None end) overloads.
(** the candidate that is better than every other one, None: ambiguous or no candidate *)
Definition best (x : operand) : option overload :=
  let vs := viable x in
  match List.filter (fun v => forallb (fun u => bool_decide (snd u = snd v /\ fst u = fst v) || better (is_rvalue x) (fst v) (snd v) (fst u) (snd u)) vs) vs with
  | [v] => Some (fst v)
  | _ => None
  end.
(** static_assert(is_const_method_v<Method>) in the bodies A 1028, 1041, 1053 *)
Definition asserts_const (o : overload) : bool := match o with OvConst | OvCref | OvSCref => true | _ => false end.
(** D 108-109, 119-120 is_const of a method with self by value or reference: [selfref], and const T& *)
Definition is_const_method (selfref selfconst : bool) : bool := negb selfref || selfconst.
Definition invoke_compiles (x : operand) (mconst : bool) : bool :=
  match best x with Some o => implb (asserts_const o) mconst | None => false end.
