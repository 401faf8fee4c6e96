(** An any as an optional value: specification used by C95.  A machine without memory, tables, buffers or allocators. *)
From stdpp Require Import gmap list.
From Verif Require Import AnyModel AnyInv AnyHistory.

(** which anys exist, and what each holds: a type and a value, or nothing *)
Definition values : Type := nat -> option (option (nat * nat)).
Definition upd (v : values) (i : nat) (c : option (option (nat * nat))) : values := fun k => if k =? i then c else v k.

(** what the caller sees of an operation *)
Inductive answer : Set := ADone | AReturned (x : nat) | AThrew.
Definition threw (a : answer) : bool := match a with AThrew => true | _ => false end.

(** the argument a value is constructed from *)
Definition arg_value (v : values) (T : nat) (s : arg) : option nat :=
  match s with
  | AVal x => Some x
  | AFrom k => match v k with Some (Some (T', x)) => if T' =? T then Some x else None | _ => None end
  end.

(** One operation; [th] tells whether something in it threw, except for methods, where [meth] (type, method, value, argument to
    new value and result) tells.  [None]: not possible. *)
Definition vstep (meth : nat -> nat -> nat -> nat -> nat * option nat) (th : bool) (o : op) (v : values) : option (answer * values) :=
  match o, th with
  | ODefault i _ _, false | OReset i, false | ODestroy i, false | OReplace i _, false => Some (ADone, upd v i (Some None))
  | OValue i _ _ T s _, false | OForce i _ T s _, false | OEmplace i T s _, false =>
      match arg_value v T s with Some x => Some (ADone, upd v i (Some (Some (T, x)))) | None => None end
  | OCopy i j _, false | OCopyAssign i j _, false | OMaterialize i _ (RAny j _), false => Some (ADone, upd v i (v j))
  | OMove i j, false | OTransMove i j _, false => Some (ADone, upd (upd v i (v j)) j (Some None))
  | OMoveAssign i j, false => Some (ADone, if i =? j then v else upd (upd v i (v j)) j (Some None))
  | OSwap i j _, false => Some (ADone, upd (upd v i (v j)) j (v i))
  | ODtor i, false => Some (ADone, upd v i None)
  | OSref _ _ _, false | ODropSref _, false => Some (ADone, v)
  | OInvoke i n x, _ =>
      match v i with
      | Some (Some (T, y)) =>
          let (y', r) := meth T n y x in
          Some (match r with Some z => AReturned z | None => AThrew end, upd v i (Some (Some (T, y'))))
      | _ => None
      end
  (* nothing has happened *)
  | OValue _ _ _ _ _ _, true | OForce _ _ _ _ _, true | OCopy _ _ _, true | OCopyAssign _ _ _, true | OMaterialize _ _ _, true =>
      Some (AThrew, v)
  (* the old value is lost *)
  | OEmplace i _ _ _, true | OReplace i _, true => Some (AThrew, upd v i (Some None))
  | _, _ => None
  end.
Fixpoint vplay (meth : nat -> nat -> nat -> nat -> nat * option nat) (ths : list bool) (l : list op) (v : values) : option (list answer * values) :=
  match l, ths with
  | [], [] => Some ([], v)
  | o :: l, th :: ths =>
      match vstep meth th o v with
      | Some (a, v') => match vplay meth ths l v' with Some (t, v'') => Some (a :: t, v'') | None => None end
      | None => None
      end
  | _, _ => None
  end.

(** a program run by the library, with what its caller sees *)
Definition answered (E : env) (o : op) : M answer :=
  match o with
  | OInvoke i n x => let! r := invoke E i n x in retM (AReturned r)
  | _ => run E o ;;; retM ADone
  end.
Fixpoint play (E : env) (l : list op) (w : world) : res (list answer) :=
  match l with
  | [] => Ok [] w
  | o :: l =>
      match answered E o w with
      | Ok a w' => match play E l w' with Ok t w'' => Ok (a :: t) w'' | r => r end
      | Exn w' => match play E l w' with Ok t w'' => Ok (AThrew :: t) w'' | r => r end
      | UB r => UB r
      | Term => Term
      end
  end.

(** programs without values copied out of stateful references (these keep pointers) *)
Definition by_name (o : op) : Prop := match o with OMaterialize _ _ (RSref _) => False | _ => True end.
(** assignments between anys; where allocators are neither always equal nor propagate, these may throw half way (C08) *)
Definition assigns (o : op) : bool := match o with OMoveAssign _ _ | OCopyAssign _ _ _ | OSwap _ _ _ => true | _ => false end.
