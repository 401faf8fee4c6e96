(** Model of type_switch, /repo/include/anyany/utility.hpp (U) 19-108. *)
From stdpp Require Import gmap list.
From Verif Require Import TypeListModel AnyModel DescModel PolyModel.

(** the functions passed to the chain, by name: [sb_case] gets the value of type T at q, [sb_default] gets *value *)
Record sbodies : Type := SBodies { sb_case : nat -> nat -> ptr -> M nat; sb_default : nat -> pval -> M nat }.

(** .case_<T>(f), .cases<Ts...>(f) *)
Inductive scase : Set := SCase (T f : nat) | SCases (Ts : list nat) (f : nat).
(** .default_(f), .default_(v), .no_default() *)
Inductive send : Set := SDefaultF (f : nat) | SDefaultV (v : nat) | SNoDefault.
(** what the switch is on: an any (const or not), a poly_ref or const_poly_ref, a poly_ptr or const_poly_ptr *)
Inductive ssubject : Set := SubAny (i : nat) (const : bool) | SubRef (p : pval) | SubPtr (p : pval).

Section Switch.
  Context (O : obs) (B : sbodies) (void : bool).

  (** U 101-108 type_switch and U 31-34 the constructor. A poly_ptr is passed as an lvalue to a constructor taking
      PolyPtr&&, which is ill-formed. The assertion is that the pointer is not null. *)
  Definition switch_on (s : ssubject) : M pval :=
    let! c := match s with
              | SubAny i c => start O (if c then OCAddr i else OAddr i)
              | SubRef p => match pv_k p with KRef | KCRef => run_step O AddrOf (CView p) | _ => ubM UbIllFormed end
              | SubPtr _ => ubM UbIllFormed
              end in
    match c with
    | CView p => match pv_p p with Some _ => retM p | None => ubM UbAssert end
    | _ => ubM UbIllFormed
    end.

  (** U 36-49 case_. std::optional<Result>: for void results the value is the empty struct, 0 here *)
  Definition case1 (p : pval) (T f : nat) (result : option nat) : M (option nat) :=
    match result with
    | Some r => retM (Some r)
    | None =>
        let! v := cast_ptr O p T in
        match v with
        | Some q => let! r := sb_case B f T q in retM (Some (if void then 0 else r))
        | None => retM None
        end
    end.
  Fixpoint cases_fold (p : pval) (Ts : list nat) (f : nat) (result : option nat) : M (option nat) :=
    match Ts with [] => retM result | T :: tl => let! r := case1 p T f result in cases_fold p tl f r end.
  Fixpoint uniqueb (Ts : list nat) : bool :=
    match Ts with [] => true | T :: tl => negb (existsb (Nat.eqb T) tl) && uniqueb tl end.
  (** U 50-58 cases: the types must be distinct *)
  Definition run_case (p : pval) (c : scase) (result : option nat) : M (option nat) :=
    match c with
    | SCase T f => case1 p T f result
    | SCases Ts f => ensure (uniqueb Ts) UbIllFormed ;;; cases_fold p Ts f result
    end.
  Fixpoint run_cases (p : pval) (l : list scase) (result : option nat) : M (option nat) :=
    match l with [] => retM result | c :: tl => let! r := run_case p c result in run_cases p tl r end.

  (** U 59-75. Result is a struct without accessible constructor when ResultT is void: neither a function returning
      void nor any value converts to it *)
  Definition run_end (p : pval) (e : send) (result : option nat) : M (option nat) :=
    match e with
    | SNoDefault => retM result
    | SDefaultF f =>
        if void then ubM UbIllFormed
        else match result with
             | Some r => retM (Some r)
             | None => let! c := run_step O Deref (CView p) in
                       match c with CView r => let! x := sb_default B f r in retM (Some x) | _ => ubM UbIllFormed end
             end
    | SDefaultV v => if void then ubM UbIllFormed else match result with Some r => retM (Some r) | None => retM (Some v) end
    end.

  Definition type_switch (s : ssubject) (l : list scase) (e : send) : M (option nat) :=
    let! p := switch_on s in
    let! r := run_cases p l None in
    run_end p e r.
End Switch.
