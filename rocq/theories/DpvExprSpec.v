(** What expressions on data_parallel_vectors are compared with: the same expressions on std::vector<T>, T a tuple of N fields. *)
From Coq Require Import ZArith.
From stdpp Require Import gmap list.
From Verif Require Import DpvModel DpvExprModel.

(** ** Which expressions compile for std::vector: constness only matters where something is changed *)
Section Typing.
  Context (N : nat).
  Fixpoint vty (e : expr) : option ety :=
    match e with
    | EVec c _ => Some (TVec c)
    | EAsConst e => match vty e with
                    | Some (TVec _) => Some (TVec true) | Some (TIter _) => Some (TIter true)
                    | Some (TRef _) => Some (TRef true) | Some (TField _ j) => Some (TField true j) | _ => None
                    end
    | ESize e => match vty e with Some (TVec _) => Some TNum | _ => None end
    | EBegin e | EEnd e => match vty e with Some (TVec c) => Some (TIter c) | _ => None end
    | ECBegin e | ECEnd e => match vty e with Some (TVec _) => Some (TIter true) | _ => None end
    | EFront e | EBack e | EIndex e _ => match vty e with Some (TVec c) => Some (TRef c) | _ => None end
    | EInc e | EDec e | EAdd e _ | ESub e _ => match vty e with Some (TIter c) => Some (TIter c) | _ => None end
    | EDiff a b => match vty a, vty b with Some (TIter _), Some (TIter _) => Some TDiff | _, _ => None end
    | EItEq a b => match vty a, vty b with Some (TIter _), Some (TIter _) => Some TBool | _, _ => None end
    | EItCmp a b => match vty a, vty b with Some (TIter _), Some (TIter _) => Some TOrd | _, _ => None end
    | EDeref e | EItIndex e _ => match vty e with Some (TIter c) => Some (TRef c) | _ => None end
    | EGet j e => match vty e with Some (TRef c) => if j <? N then Some (TField c j) else None | _ => None end
    | ERead e => match vty e with Some (TField _ _) => Some TNum | _ => None end
    | EWrite e _ => match vty e with Some (TField false j) => Some (TField false j) | _ => None end
    | EValue e => match vty e with Some (TRef _) => Some TValue | _ => None end
    | ESetValue e r => match vty e with Some (TRef false) => if length r =? N then Some (TRef false) else None | _ => None end
    | ESetRef a b => match vty a, vty b with Some (TRef false), Some (TRef _) => Some (TRef false) | _, _ => None end
    | ESwap a b => match vty a, vty b with Some (TRef false), Some (TRef false) => Some TBool | _, _ => None end
    | EIterMove e => match vty e with Some (TIter _) => Some TValue | _ => None end
    | EIterSwap a b => match vty a, vty b with Some (TIter false), Some (TIter false) => Some TBool | _, _ => None end
    | EEqValue e r => match vty e with Some (TRef _) => if length r =? N then Some TBool else None | _ => None end
    | ECmpValue e r => match vty e with Some (TRef _) => if length r =? N then Some TOrd else None | _ => None end
    | EEq a b => match vty a, vty b with Some (TRef _), Some (TRef _) => Some TBool | _, _ => None end
    | ECmp a b => match vty a, vty b with Some (TRef _), Some (TRef _) => Some TOrd | _, _ => None end
    | ESeq a b => match vty a, vty b with Some _, Some t => Some t | _, _ => None end
    end.
End Typing.

(** ** What they do.  None: undefined behaviour of std::vector *)
Section Eval.
  (** T's defaulted comparisons: <=> of the first fields that differ, == of all fields; a moved from field v becomes [mf v] *)
  Context (N : nat) (mf : nat -> nat) (cmp : nat -> nat -> nat -> option comparison) (eqf : nat -> nat -> nat -> bool).
  Notation vecs := (gmap nat (list row)).
  Fixpoint t_cmp (j : nat) (a b : row) : option comparison :=
    match a, b with
    | x :: a', y :: b' => match cmp j x y with Some Eq => t_cmp (S j) a' b' | o => o end
    | _, _ => Some Eq
    end.
  Fixpoint t_eq (j : nat) (a b : row) : bool :=
    match a, b with x :: a', y :: b' => eqf j x y && t_eq (S j) a' b' | _, _ => true end.

  Definition vM : Type := vecs -> option (xval * vecs).
  Definition v1 (m : vM) (k : xval -> vM) : vM := fun w => match m w with Some (a, w') => k a w' | None => None end.
  Definition v2 (m n : vM) (k : xval -> xval -> vM) : vM := v1 m (fun a => v1 n (fun b => k a b)).
  (** element i of vector x; storing into it *)
  Definition elem (x i : nat) (m : vecs) : option row := match m !! x with Some v => v !! i | None => None end.
  Definition store (x i : nat) (r : row) (m : vecs) : vecs := alter (fun v => <[i := r]> v) x m.
  Definition vref (x : nat) (i : Z) : vM := fun m =>
    if (0 <=? i)%Z then match elem x (Z.to_nat i) m with Some _ => Some (XRef x (Z.to_nat i), m) | None => None end else None.
  (** an iterator must stay between begin() and end() *)
  Definition viter (x : nat) (i : Z) : vM := fun m =>
    match m !! x with Some v => if (0 <=? i)%Z && (i <=? Z.of_nat (length v))%Z then Some (XIter x i, m) else None | None => None end.

  Fixpoint vev (e : expr) : vM :=
    match e with
    | EVec _ x => fun m => Some (XVec x, m)
    | EAsConst e => vev e
    | ESize e => v1 (vev e) (fun a m => match a with XVec x => match m !! x with Some v => Some (XNum (length v), m) | None => None end | _ => None end)
    | EBegin e | ECBegin e => v1 (vev e) (fun a m => match a with XVec x => viter x 0 m | _ => None end)
    | EEnd e | ECEnd e => v1 (vev e) (fun a m => match a with XVec x => match m !! x with Some v => viter x (Z.of_nat (length v)) m | None => None end | _ => None end)
    | EFront e => v1 (vev e) (fun a m => match a with XVec x => vref x 0 m | _ => None end)
    | EBack e => v1 (vev e) (fun a m => match a with XVec x => match m !! x with Some v => vref x (Z.of_nat (length v) - 1) m | None => None end | _ => None end)
    | EIndex e n => v1 (vev e) (fun a m => match a with XVec x => vref x (Z.of_nat n) m | _ => None end)
    | EInc e => v1 (vev e) (fun a m => match a with XIter x i => viter x (i + 1) m | _ => None end)
    | EDec e => v1 (vev e) (fun a m => match a with XIter x i => viter x (i - 1) m | _ => None end)
    | EAdd e n => v1 (vev e) (fun a m => match a with XIter x i => viter x (i + n) m | _ => None end)
    | ESub e n => v1 (vev e) (fun a m => match a with XIter x i => viter x (i - n) m | _ => None end)
    | EDiff a b => v2 (vev a) (vev b) (fun a b m => match a, b with XIter x i, XIter y j => if x =? y then Some (XDiff (i - j), m) else None | _, _ => None end)
    | EItEq a b => v2 (vev a) (vev b) (fun a b m => match a, b with XIter x i, XIter y j => if x =? y then Some (XBool (i =? j)%Z, m) else None | _, _ => None end)
    | EItCmp a b => v2 (vev a) (vev b) (fun a b m => match a, b with XIter x i, XIter y j => if x =? y then Some (XOrd (Some (i ?= j)%Z), m) else None | _, _ => None end)
    | EDeref e => v1 (vev e) (fun a m => match a with XIter x i => vref x i m | _ => None end)
    | EItIndex e n => v1 (vev e) (fun a m => match a with XIter x i => vref x (i + n) m | _ => None end)
    | EGet j e => v1 (vev e) (fun a m => match a with XRef x i => Some (XField x i j, m) | _ => None end)
    | ERead e => v1 (vev e) (fun a m => match a with XField x i j => match elem x i m with Some r => match r !! j with Some v => Some (XNum v, m) | None => None end | None => None end | _ => None end)
    | EWrite e v => v1 (vev e) (fun a m => match a with XField x i j => match elem x i m with Some r => Some (a, store x i (<[j := v]> r) m) | None => None end | _ => None end)
    | EValue e => v1 (vev e) (fun a m => match a with XRef x i => match elem x i m with Some r => Some (XRow r, m) | None => None end | _ => None end)
    | ESetValue e r => v1 (vev e) (fun a m => match a with XRef x i => Some (a, store x i r m) | _ => None end)
    | ESetRef a b => v2 (vev a) (vev b) (fun u v m => match u, v with XRef x i, XRef y j => match elem y j m with Some r => Some (u, store x i r m) | None => None end | _, _ => None end)
    | ESwap a b =>
        v2 (vev a) (vev b) (fun u v m => match u, v with
                                         | XRef x i, XRef y j => match elem x i m, elem y j m with Some p, Some q => Some (XBool true, store y j p (store x i q m)) | _, _ => None end
                                         | _, _ => None
                                         end)
    (* a const element can only be copied *)
    | EIterMove e =>
        v1 (vev e) (fun a m => match a with
                               | XIter x i => match vref x i m with
                                              | Some _ => match elem x (Z.to_nat i) m with
                                                          | Some r => Some (XRow r, match vty N e with Some (TIter false) => store x (Z.to_nat i) (map mf r) m | _ => m end)
                                                          | None => None
                                                          end
                                              | None => None
                                              end
                               | _ => None
                               end)
    | EIterSwap a b =>
        v2 (vev a) (vev b) (fun u v m => match u, v with
                                         | XIter x i, XIter y j =>
                                             match elem x (Z.to_nat i) m, elem y (Z.to_nat j) m with
                                             | Some p, Some q => Some (XBool true, store y (Z.to_nat j) p (store x (Z.to_nat i) q m))
                                             | _, _ => None
                                             end
                                         | _, _ => None
                                         end)
    | EEqValue e r => v1 (vev e) (fun a m => match a with XRef x i => match elem x i m with Some q => Some (XBool (t_eq 0 q r), m) | None => None end | _ => None end)
    | ECmpValue e r => v1 (vev e) (fun a m => match a with XRef x i => match elem x i m with Some q => Some (XOrd (t_cmp 0 q r), m) | None => None end | _ => None end)
    | EEq a b => v2 (vev a) (vev b) (fun u v m => match u, v with XRef x i, XRef y j => match elem x i m, elem y j m with Some p, Some q => Some (XBool (t_eq 0 p q), m) | _, _ => None end | _, _ => None end)
    | ECmp a b => v2 (vev a) (vev b) (fun u v m => match u, v with XRef x i, XRef y j => match elem x i m, elem y j m with Some p, Some q => Some (XOrd (t_cmp 0 p q), m) | _, _ => None end | _, _ => None end)
    | ESeq a b => v2 (vev a) (vev b) (fun _ b m => Some (b, m))
    end.
End Eval.

(** ** Parts of an expression *)
(** every vector is named as const *)
Fixpoint all_const (e : expr) : bool :=
  match e with
  | EVec c _ => c
  | EAsConst e | ESize e | EBegin e | EEnd e | ECBegin e | ECEnd e | EFront e | EBack e | EIndex e _ | EInc e | EDec e | EAdd e _ | ESub e _
  | EDeref e | EItIndex e _ | EGet _ e | ERead e | EWrite e _ | EValue e | ESetValue e _ | EIterMove e | EEqValue e _ | ECmpValue e _ => all_const e
  | EDiff a b | EItEq a b | EItCmp a b | ESetRef a b | ESwap a b | EIterSwap a b | EEq a b | ECmp a b | ESeq a b => all_const a && all_const b
  end.
(** the vectors named without const *)
Fixpoint open_vecs (e : expr) : gset nat :=
  match e with
  | EVec c x => if c then ∅ else {[x]}
  | EAsConst e | ESize e | EBegin e | EEnd e | ECBegin e | ECEnd e | EFront e | EBack e | EIndex e _ | EInc e | EDec e | EAdd e _ | ESub e _
  | EDeref e | EItIndex e _ | EGet _ e | ERead e | EWrite e _ | EValue e | ESetValue e _ | EIterMove e | EEqValue e _ | ECmpValue e _ => open_vecs e
  | EDiff a b | EItEq a b | EItCmp a b | ESetRef a b | ESwap a b | EIterSwap a b | EEq a b | ECmp a b | ESeq a b => open_vecs a ∪ open_vecs b
  end.
(** the forms std::vector has and data_parallel_vector lacks: back() of a const vector, iterator - const_iterator, a reference as const_reference,
    reference == or <=> const_reference *)
Fixpoint supported (N : nat) (e : expr) : bool :=
  match e with
  | EVec _ _ => true
  | EBack e => supported N e && match vty N e with Some (TVec true) => false | _ => true end
  | EDiff a b => supported N a && supported N b && match vty N a, vty N b with Some (TIter false), Some (TIter true) => false | _, _ => true end
  | EAsConst e => supported N e && match vty N e with Some (TRef _) => false | _ => true end
  | EEq a b | ECmp a b => supported N a && supported N b && match vty N a, vty N b with Some (TRef ca), Some (TRef cb) => Bool.eqb ca cb | _, _ => true end
  | ESize e | EBegin e | EEnd e | ECBegin e | ECEnd e | EFront e | EIndex e _ | EInc e | EDec e | EAdd e _ | ESub e _
  | EDeref e | EItIndex e _ | EGet _ e | ERead e | EWrite e _ | EValue e | ESetValue e _ | EIterMove e | EEqValue e _ | ECmpValue e _ => supported N e
  | EItEq a b | EItCmp a b | ESetRef a b | ESwap a b | EIterSwap a b | ESeq a b => supported N a && supported N b
  end.
(** iterator - n with negative n: its assert fails (C54) *)
Fixpoint forward_only (e : expr) : bool :=
  match e with
  | EVec _ _ => true
  | ESub e n => forward_only e && (0 <=? n)%Z
  | EAsConst e | ESize e | EBegin e | EEnd e | ECBegin e | ECEnd e | EFront e | EBack e | EIndex e _ | EInc e | EDec e | EAdd e _
  | EDeref e | EItIndex e _ | EGet _ e | ERead e | EWrite e _ | EValue e | ESetValue e _ | EIterMove e | EEqValue e _ | ECmpValue e _ => forward_only e
  | EDiff a b | EItEq a b | EItCmp a b | ESetRef a b | ESwap a b | EIterSwap a b | EEq a b | ECmp a b | ESeq a b => forward_only a && forward_only b
  end.
