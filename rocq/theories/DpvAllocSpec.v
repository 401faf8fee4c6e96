(** What callers expect of the allocators of data_parallel_vector: what std::vector<T, Alloc> does. *)
From stdpp Require Import gmap list.
From Verif Require Import AnyModel DpvModel DpvAllocModel.

(** the allocators of the vectors of a program, after a statement *)
Definition aspec (tr : atraits) (o : aop) (g : gmap nat nat) : gmap nat nat :=
  match o with
  | ANew x _ a => <[x := a]> g
  | ANewDefault x _ => partial_alter (fun _ => dflt tr) x g
  | ACopy x y => partial_alter (fun _ => socc tr <$> g !! y) x g
  | ACopyWith x y a | AMoveWith x y a => <[x := a]> g
  | AMove x y => partial_alter (fun _ => g !! y) x g
  | ACopyAssign x y => if pocca tr then partial_alter (fun _ => g !! y) x g else g
  | AMoveAssign x y => if pocma tr then partial_alter (fun _ => g !! y) x g else g
  | ASwap x y => if pocs tr then partial_alter (fun _ => g !! x) y (partial_alter (fun _ => g !! y) x g) else g
  | AAssign x _ => g
  | AEdit x _ => g
  end.
(** assign keeps the allocator if it does not propagate on move assignment or is equal to allocator_type() *)
Definition assign_keeps (tr : atraits) (o : aop) (g : gmap nat nat) : Prop :=
  match o with AAssign x _ => pocma tr = false \/ dflt tr = g !! x | _ => True end.

(** a throwing statement keeps the allocators, unless it is a copy assignment that propagates them: some columns may have got theirs *)
Definition throw_keeps (tr : atraits) (o : aop) : Prop := match o with ACopyAssign _ _ => pocca tr = false | _ => True end.
(** programs on vectors with N fields, of statements that keep the allocators in these cases *)
Inductive a_history tr alloc reuse left (N : nat) : aworld -> gmap nat nat -> Prop :=
| ah_start : a_history tr alloc reuse left N (AW ∅ 0) ∅
| ah_step o w w' g : a_history tr alloc reuse left N w g -> aop_wf N o -> assign_keeps tr o g -> astep tr alloc reuse left o w = AOk w' ->
    a_history tr alloc reuse left N w' (aspec tr o g)
| ah_throw o w w' g : a_history tr alloc reuse left N w g -> aop_wf N o -> throw_keeps tr o -> astep tr alloc reuse left o w = AThrow w' ->
    a_history tr alloc reuse left N w' g.
(** programs; statements may throw *)
Inductive a_program tr alloc reuse left (N : nat) : aworld -> Prop :=
| ap_start : a_program tr alloc reuse left N (AW ∅ 0)
| ap_ok o w w' : a_program tr alloc reuse left N w -> aop_wf N o -> astep tr alloc reuse left o w = AOk w' -> a_program tr alloc reuse left N w'
| ap_throw o w w' : a_program tr alloc reuse left N w -> aop_wf N o -> astep tr alloc reuse left o w = AThrow w' -> a_program tr alloc reuse left N w'.

(** a vector with N columns that all use the allocator [a] *)
Definition uses (N : nat) (w : aworld) (x a : nat) : Prop :=
  exists cols, aw_vecs w !! x = Some cols /\ length cols = N /\ forall c, c ∈ cols -> c_al c = a.
(** storage [b] belongs to column j of x and was allocated with [a] *)
Definition holds_storage (w : aworld) (x j b a : nat) : Prop :=
  exists cols c, aw_vecs w !! x = Some cols /\ cols !! j = Some c /\ c_buf c = Some (b, a).
Definition elements_of (w : aworld) (x : nat) : option (list (list nat)) := map c_els <$> aw_vecs w !! x.

(** the vector a statement writes, and its elements afterwards *)
Definition target (o : aop) : nat :=
  match o with
  | ANew x _ _ | ANewDefault x _ | ACopy x _ | ACopyWith x _ _ | AMove x _ | AMoveWith x _ _ | ACopyAssign x _ | AMoveAssign x _
  | ASwap x _ | AAssign x _ | AEdit x _ => x
  end.
Definition expected (o : aop) (w : aworld) : option (list (list nat)) :=
  match o with
  | ANew _ els _ | ANewDefault _ els | AAssign _ els => Some els
  | ACopy _ y | ACopyWith _ y _ | AMove _ y | AMoveWith _ y _ | ACopyAssign _ y | AMoveAssign _ y | ASwap _ y => elements_of w y
  | AEdit x m => match elements_of w x with Some els => m els | None => None end
  end.
(** the vector a statement takes from *)
Definition taken (o : aop) : option nat :=
  match o with AMove _ y | AMoveWith _ y _ | AMoveAssign _ y | ASwap _ y => Some y | _ => None end.
(** the statement makes its target *)
Definition constructs (o : aop) : Prop :=
  match o with ANew _ _ _ | ANewDefault _ _ | ACopy _ _ | ACopyWith _ _ _ | AMove _ _ | AMoveWith _ _ _ => True | _ => False end.
(** x has got the columns y had, with their storage; y has none left *)
Definition storage_moved (w w' : aworld) (x y : nat) : Prop :=
  exists cols, aw_vecs w !! y = Some cols /\
    (exists cols', aw_vecs w' !! x = Some cols' /\ map c_buf cols' = map c_buf cols /\ map c_els cols' = map c_els cols) /\
    exists rest, aw_vecs w' !! y = Some rest /\ length rest = length cols /\ forall c, c ∈ rest -> c_els c = [] /\ c_buf c = None.
