(** Model of expressions on data_parallel_vectors: which of them compile and what they do.
    Source: P = include/anyany/data_parallel_vector.hpp.
    The value type is tuple-like with N fields whose comparisons are three-way.  Operands are evaluated from left to right. *)
From Coq Require Import ZArith.
From stdpp Require Import gmap list.
From Verif Require Import DpvModel DpvIterModel.

(** The expressions.  A vector is used by its name; [c]: the name is that of a const vector (or of a const reference to it).
    Everything a program can say about one element without naming the types of the library. *)
Inductive expr : Type :=
| EVec (c : bool) (x : nat)
| EAsConst (e : expr)                          (* conversion of a vector, iterator, reference or field to its const version *)
| ESize (e : expr)
| EBegin (e : expr) | EEnd (e : expr) | ECBegin (e : expr) | ECEnd (e : expr)
| EFront (e : expr) | EBack (e : expr) | EIndex (e : expr) (n : nat)
| EInc (e : expr) | EDec (e : expr) | EAdd (e : expr) (n : Z) | ESub (e : expr) (n : Z)
| EDiff (a b : expr) | EItEq (a b : expr) | EItCmp (a b : expr)
| EDeref (e : expr) | EItIndex (e : expr) (n : Z)
| EGet (j : nat) (e : expr)                    (* get<j>(element) *)
| ERead (e : expr) | EWrite (e : expr) (v : nat)   (* a field's value; field = v *)
| EValue (e : expr)                            (* value_type(element) *)
| ESetValue (e : expr) (r : row)               (* element = value *)
| ESetRef (a b : expr)                         (* element = element *)
| ESwap (a b : expr)                           (* swap(element, element) *)
| EIterMove (e : expr)                         (* value_type(std::ranges::iter_move(it)) *)
| EIterSwap (a b : expr)                       (* std::ranges::iter_swap(it, it) *)
| EEqValue (e : expr) (r : row) | ECmpValue (e : expr) (r : row)
| EEq (a b : expr) | ECmp (a b : expr)         (* ==, <=> of elements *)
| ESeq (a b : expr).

(** Types of expressions; the flag is constness.  [TRef]: reference and const_reference, P 66-228 *)
Inductive ety : Type :=
| TVec (c : bool) | TIter (c : bool) | TRef (c : bool) | TField (c : bool) (j : nat)
| TValue | TNum | TDiff | TBool | TOrd.

(** What they evaluate to *)
Inductive xval : Type :=
| XVec (x : nat) | XIter (x : nat) (i : Z) | XRef (x i : nat) | XField (x i j : nat)
| XRow (r : row) | XNum (n : nat) | XDiff (z : Z) | XBool (b : bool) | XOrd (o : option comparison).

(** ** Compile time *)
Section Typing.
  Context (N : nat).
  (** values of the value type have N fields *)
  Definition row_ok (r : row) : bool := length r =? N.
  Fixpoint dty (e : expr) : option ety :=
    match e with
    | EVec c _ => Some (TVec c)
    (* P 283-288 const_iterator(iterator).  P 192-193 const_proxy(const proxy&) copies the proxy, but proxy declares a move assignment (P 105-107),
       which deletes its copy constructor: a reference does not become a const_reference *)
    | EAsConst e => match dty e with
                    | Some (TVec _) => Some (TVec true)
                    | Some (TIter _) => Some (TIter true)
                    | Some (TField _ j) => Some (TField true j)
                    | _ => None
                    end
    (* P 525-527 *)
    | ESize e => match dty e with Some (TVec _) => Some TNum | _ => None end
    (* P 408-425; cbegin and cend are const members *)
    | EBegin e | EEnd e => match dty e with Some (TVec c) => Some (TIter c) | _ => None end
    | ECBegin e | ECEnd e => match dty e with Some (TVec _) => Some (TIter true) | _ => None end
    (* P 429-436, 445-450 *)
    | EFront e | EIndex e _ => match dty e with Some (TVec c) => Some (TRef c) | _ => None end
    (* P 437-444: the const version is declared to return reference, but *--end() is a const_reference that does not convert to it *)
    | EBack e => match dty e with Some (TVec false) => Some (TRef false) | _ => None end
    (* P 292-334 *)
    | EInc e | EDec e | EAdd e _ | ESub e _ => match dty e with Some (TIter c) => Some (TIter c) | _ => None end
    (* P 335-337: a member; its operand must convert to the left side's type *)
    | EDiff a b => match dty a, dty b with Some (TIter ca), Some (TIter cb) => if implb cb ca then Some TDiff else None | _, _ => None end
    (* P 344-351: rewritten with swapped operands if need be *)
    | EItEq a b => match dty a, dty b with Some (TIter ca), Some (TIter cb) => if implb cb ca || implb ca cb then Some TBool else None | _, _ => None end
    | EItCmp a b => match dty a, dty b with Some (TIter ca), Some (TIter cb) => if implb cb ca || implb ca cb then Some TOrd else None | _, _ => None end
    (* P 243 reference, 289-291, 338-340 *)
    | EDeref e | EItIndex e _ => match dty e with Some (TIter c) => Some (TRef c) | _ => None end
    (* P 73-76, 181-184 get: auto&, const auto& *)
    | EGet j e => match dty e with Some (TRef c) => if j <? N then Some (TField c j) else None | _ => None end
    | ERead e => match dty e with Some (TField _ _) => Some TNum | _ => None end
    | EWrite e _ => match dty e with Some (TField false j) => Some (TField false j) | _ => None end
    (* P 83-90, 201-203 *)
    | EValue e => match dty e with Some (TRef _) => Some TValue | _ => None end
    (* P 92-100; deleted for const_proxy, P 196-197 *)
    | ESetValue e r => match dty e with Some (TRef false) => if row_ok r then Some (TRef false) else None | _ => None end
    (* P 101-107; a const_proxy on the right becomes a value_type, P 92; deleted for const_proxy on the left, P 196-199 *)
    | ESetRef a b => match dty a, dty b with Some (TRef false), Some (TRef _) => Some (TRef false) | _, _ => None end
    (* P 109-115 *)
    | ESwap a b => match dty a, dty b with Some (TRef false), Some (TRef false) => Some TBool | _, _ => None end
    (* P 267-271 for iterators; for a const_iterator std::ranges::iter_move gives *it *)
    | EIterMove e => match dty e with Some (TIter _) => Some TValue | _ => None end
    (* P 278-282 *)
    | EIterSwap a b => match dty a, dty b with Some (TIter false), Some (TIter false) => Some TBool | _, _ => None end
    (* P 151-154, 159-161, 208-211, 216-218 *)
    | EEqValue e r => match dty e with Some (TRef _) => if row_ok r then Some TBool else None | _ => None end
    | ECmpValue e r => match dty e with Some (TRef _) => if row_ok r then Some TOrd else None | _ => None end
    (* P 156-158, 212-214: for a proxy and a const_proxy only const_proxy == const_proxy is viable, and converting the proxy does not compile *)
    | EEq a b => match dty a, dty b with Some (TRef ca), Some (TRef cb) => if Bool.eqb ca cb then Some TBool else None | _, _ => None end
    (* P 162-164, 219-221: for a proxy and a const_proxy <=>(const value_type&) of either is viable too and none is better: ambiguous *)
    | ECmp a b => match dty a, dty b with Some (TRef ca), Some (TRef cb) => if Bool.eqb ca cb then Some TOrd else None | _, _ => None end
    | ESeq a b => match dty a, dty b with Some _, Some t => Some t | _, _ => None end
    end.
End Typing.

(** ** Run time.  None: an assertion fails or a column is used out of bounds. *)
Section Eval.
  Context (N : nat) (mf : nat -> nat) (ndebug : bool) (cmp : nat -> nat -> nat -> option comparison).
  Definition xM : Type := dworld -> option (xval * dworld).
  (** a member function of vector x that changes nothing *)
  Definition look {A} (x : nat) (m : dM A) (w : dworld) : option A :=
    match w !! x with Some c => match m c None with DOk a _ _ => Some a | _ => None end | None => None end.
  Definition size_of (x : nat) (w : dworld) : option Z := Z.of_nat <$> look x d_size w.
  (** P 80-82 proxy(owner, index), P 190-192 const_proxy: through a proxy *)
  Definition x_ref (x : nat) (it : iter) (w : dworld) : option (xval * dworld) :=
    match look x (d_ref (Z.to_nat (idx it))) w with Some i => Some (XRef x i, w) | None => None end.
  (** P 83-90: the fields at index of all columns *)
  Definition x_row (x i : nat) (w : dworld) : option row := look x (d_read i) w.
  (** P 257-265 do_iter_move: each field is moved from *)
  Definition d_take (i : nat) : dM row :=
    dlet r := d_read i in dlet _ := each (fun j col => match col !! i with Some v => Some (<[i := mf v]> col) | None => None end) in dret r.

  Definition ev1 (m : xM) (k : xval -> xM) : xM := fun w => match m w with Some (a, w') => k a w' | None => None end.
  Definition ev2 (m n : xM) (k : xval -> xval -> xM) : xM := ev1 m (fun a => ev1 n (fun b => k a b)).
  Definition xret (a : xval) : xM := fun w => Some (a, w).
  Definition xbad : xM := fun _ => None.
  Definition xopt (o : option xval) : xM := match o with Some a => xret a | None => xbad end.
  Definition after (w : dworld) (a : xval) (r : wres) : option (xval * dworld) := match r with WOk w' _ _ => Some (a, w') | _ => None end.
  (** binary operators of iterators, their asserts: P 345, 349 *)
  Definition same_owner {A} (x y : nat) (k : option A) : option A := if ndebug || (x =? y) then k else None.

  Fixpoint dev (e : expr) : xM :=
    match e with
    | EVec _ x => xret (XVec x)
    | EAsConst e => dev e
    | ESize e => ev1 (dev e) (fun a w => match a with XVec x => match look x d_size w with Some n => Some (XNum n, w) | None => None end | _ => None end)
    | EBegin e | ECBegin e => ev1 (dev e) (fun a w => match a with XVec x => match look x it_begin w with Some it => Some (XIter x (idx it), w) | None => None end | _ => None end)
    | EEnd e | ECEnd e => ev1 (dev e) (fun a w => match a with XVec x => match look x it_end w with Some it => Some (XIter x (idx it), w) | None => None end | _ => None end)
    (* P 429-444 assert(!empty()); *begin(), *--end() *)
    | EFront e => ev1 (dev e) (fun a w => match a with XVec x => match look x d_empty w with Some false => x_ref x (Iter 0) w | Some true => None | None => None end | _ => None end)
    | EBack e => ev1 (dev e) (fun a w => match a with
                                         | XVec x => match look x d_empty w, look x it_end w with
                                                     | Some false, Some it => match it_dec ndebug it with Some it' => x_ref x it' w | None => None end
                                                     | _, _ => None
                                                     end
                                         | _ => None
                                         end)
    (* P 445-450 *(begin() += pos) *)
    | EIndex e n => ev1 (dev e) (fun a w => match a with XVec x => x_ref x (it_add (Iter 0) (to_s (Z.of_nat n))) w | _ => None end)
    | EInc e => ev1 (dev e) (fun a w => match a with
                                        | XIter x i => match size_of x w with
                                                       | Some sz => match it_inc ndebug sz (Iter i) with Some it => Some (XIter x (idx it), w) | None => None end
                                                       | None => None
                                                       end
                                        | _ => None
                                        end)
    | EDec e => ev1 (dev e) (fun a w => match a with XIter x i => match it_dec ndebug (Iter i) with Some it => Some (XIter x (idx it), w) | None => None end | _ => None end)
    | EAdd e n => ev1 (dev e) (fun a w => match a with XIter x i => Some (XIter x (idx (it_add (Iter i) n)), w) | _ => None end)
    | ESub e n => ev1 (dev e) (fun a w => match a with XIter x i => match it_sub ndebug (Iter i) n with Some it => Some (XIter x (idx it), w) | None => None end | _ => None end)
    | EDiff a b => ev2 (dev a) (dev b) (fun a b w => match a, b with XIter x i, XIter y j => Some (XDiff (it_diff (Iter i) (Iter j)), w) | _, _ => None end)
    | EItEq a b => ev2 (dev a) (dev b) (fun a b w => match a, b with XIter x i, XIter y j => same_owner x y (Some (XBool (it_eq (Iter i) (Iter j)), w)) | _, _ => None end)
    | EItCmp a b => ev2 (dev a) (dev b) (fun a b w => match a, b with XIter x i, XIter y j => same_owner x y (Some (XOrd (Some (it_cmp (Iter i) (Iter j))), w)) | _, _ => None end)
    | EDeref e => ev1 (dev e) (fun a w => match a with XIter x i => x_ref x (Iter i) w | _ => None end)
    | EItIndex e n => ev1 (dev e) (fun a w => match a with XIter x i => x_ref x (it_add (Iter i) n) w | _ => None end)
    | EGet j e => ev1 (dev e) (fun a w => match a with XRef x i => Some (XField x i j, w) | _ => None end)
    | ERead e => ev1 (dev e) (fun a w => match a with XField x i j => match get_cell x i j w with Some v => Some (XNum v, w) | None => None end | _ => None end)
    | EWrite e v => ev1 (dev e) (fun a w => match a with
                                            | XField x i j => match get_cell x i j w with Some _ => Some (XField x i j, set_cell x i j v w) | None => None end
                                            | _ => None
                                            end)
    | EValue e => ev1 (dev e) (fun a w => match a with XRef x i => match x_row x i w with Some r => Some (XRow r, w) | None => None end | _ => None end)
    | ESetValue e r => ev1 (dev e) (fun a w => match a with XRef x i => after w a (member x (d_set i r) nores w None) | _ => None end)
    | ESetRef a b =>
        ev2 (dev a) (dev b) (fun u v w =>
          match u, v with
          | XRef x i, XRef y j =>
              match dty N b with
              | Some (TRef true) => match x_row y j w with Some r => after w u (member x (d_set i r) nores w None) | None => None end
              | _ => after w u (copy_cells x i y j (seq 0 N) w None)
              end
          | _, _ => None
          end)
    | ESwap a b => ev2 (dev a) (dev b) (fun u v w => match u, v with XRef x i, XRef y j => after w (XBool true) (swap_cells x i y j (seq 0 N) w None) | _, _ => None end)
    | EIterMove e =>
        ev1 (dev e) (fun a w =>
          match a with
          | XIter x i =>
              match dty N e with
              | Some (TIter false) => match w !! x with
                                      | Some c => match d_take (Z.to_nat i) c None with DOk r c' _ => Some (XRow r, <[x := c']> w) | _ => None end
                                      | None => None
                                      end
              | _ => ev1 (x_ref x (Iter i)) (fun a w => match a with XRef x i => match x_row x i w with Some r => Some (XRow r, w) | None => None end | _ => None end) w
              end
          | _ => None
          end)
    (* P 273-276: no proxy is made *)
    | EIterSwap a b => ev2 (dev a) (dev b) (fun u v w => match u, v with XIter x i, XIter y j => after w (XBool true) (swap_cells x (Z.to_nat i) y (Z.to_nat j) (seq 0 N) w None) | _, _ => None end)
    | EEqValue e r => ev1 (dev e) (fun a w => match a with XRef x i => match x_row x i w with Some q => Some (XBool (proxy_eq cmp q r), w) | None => None end | _ => None end)
    | ECmpValue e r => ev1 (dev e) (fun a w => match a with XRef x i => match x_row x i w with Some q => Some (XOrd (compare_by_fields cmp q r), w) | None => None end | _ => None end)
    | EEq a b => ev2 (dev a) (dev b) (fun u v w =>
                   match u, v with
                   | XRef x i, XRef y j =>
                       match x_row x i w, x_row y j w with
                       | Some p, Some q => Some (XBool (proxy_eq cmp p q), w)
                       | _, _ => None
                       end
                   | _, _ => None
                   end)
    | ECmp a b => ev2 (dev a) (dev b) (fun u v w =>
                   match u, v with
                   | XRef x i, XRef y j => match x_row x i w, x_row y j w with Some p, Some q => Some (XOrd (compare_by_fields cmp p q), w) | _, _ => None end
                   | _, _ => None
                   end)
    | ESeq a b => ev2 (dev a) (dev b) (fun _ b => xret b)
    end.
End Eval.
