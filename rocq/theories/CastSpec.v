(** What any_cast should do, stated without the model of it. *)
From stdpp Require Import gmap list.
From Verif Require Import TypeListModel AnyModel AnyInv AnyFacts DescModel PolyModel PolySpec CastModel.

(** how the result relates to the contained object *)
Inductive how : Set := ByRef (const xval : bool) | ByCopy | ByMove.

(** from an any: T& refers to the value, T&& of an rvalue any is an xvalue of it; otherwise a new object, moved out of a
    modifiable rvalue and copied from everything else *)
Definition how_any (t : tform) (c rv : bool) : how :=
  match t with
  | TLRef => ByRef c false
  | TRRef => if rv then ByRef c true else ByCopy
  | TVal => if rv && negb c then ByMove else ByCopy
  end.
(** from a reference: always copies into a new object, references to const values are const *)
Definition how_ref (t : tform) (c : bool) : how :=
  match t with
  | TLRef => ByRef c false
  | TRRef => if c then ByRef true false else ByCopy
  | TVal => ByCopy
  end.

(** every any keeps its address, every object except the one at [q] its value, and nothing is created or destroyed *)
Definition untouched_but (q : option ptr) (w w' : world) : Prop :=
  (forall i, address w' i = address w i) /\ (forall p, Some p <> q -> obj_at w' p = obj_at w p) /\
  (forall p o, Some p = q -> obj_at w p = Some o -> exists v, obj_at w' p = Some (Obj (o_ty o) v (o_id o))) /\
  w_sref w' = w_sref w /\ w_log w' = w_log w.

(** the outcome of a cast that finds an object of type T with value x at q *)
Definition cast_outcome (E : env) (V : movers) (h : how) (T x : nat) (q : ptr) (w : world) (r : res cres) : Prop :=
  match h with
  | ByRef c xv => r = Ok (RefTo c xv q) w
  | ByCopy => exists w', untouched_but None w w' /\
      (r = Ok (NewObj T x) w' \/ r = Exn w' /\ ty_ntcopy (e_ty E T) = false)
  | ByMove => exists w', untouched_but (Some q) w w' /\
      (r = Ok (NewObj T x) w' /\ (exists o, obj_at w' q = Some o /\ o_val o = mv_moved V T x) \/
       r = Exn w' /\ ty_ntmove (e_ty E T) = false)
  end.

(** the cast of a reference, whatever its kind *)
Definition cast_cur_as (E : env) (O : obs) (c : cur) (T : nat) (t : tform) : M cres :=
  match c with CView p => cast_ref_as E O p T t | CState b r => cast_state_as E O b r T t end.
Definition sty_const (s : sty) : bool := match s with VView KCRef _ | VState true _ => true | _ => false end.
