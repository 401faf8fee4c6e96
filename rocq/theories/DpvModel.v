(** Model of data_parallel_vector.
    Sources: P = include/anyany/data_parallel_vector.hpp, PD = include/anyany/noexport/data_parallel_vector_details.hpp.
    A value_type with N fields is a list of N values (PD 250-276; how the fields of an aggregate are reached is in FieldsModel.v);
    the vector is the list of its N columns, each a std::vector.  A column of bools is a vector of bool_ (PD 278-322), the same values. *)
From stdpp Require Import gmap list.
From Verif Require Import AnyModel.

Notation row := (list nat).
(** P 62: std::tuple<container_t<Is>...> parts *)
Notation dpv := (list (list nat)).

(** Outcomes.  [tick] counts the operations on columns still to succeed: [Some 0]: the next one throws. *)
Notation tick := (option nat).
Inductive dres (A : Type) : Type :=
| DOk (a : A) (c : dpv) (t : tick)
| DThrow (c : dpv)
| DBad (r : ubreason).
Global Arguments DOk {A} _ _ _.
Global Arguments DThrow {A} _.
Global Arguments DBad {A} _.
Definition dM (A : Type) : Type := dpv -> tick -> dres A.
Definition dret {A} (a : A) : dM A := fun c t => DOk a c t.
Definition dbad {A} (r : ubreason) : dM A := fun _ _ => DBad r.
Definition dbind {A B} (m : dM A) (k : A -> dM B) : dM B := fun c t =>
  match m c t with DOk a c' t' => k a c' t' | DThrow c' => DThrow c' | DBad r => DBad r end.
Notation "'dlet' x ':=' m 'in' k" := (dbind m (fun x => k)) (at level 200, x name, m at level 100, k at level 200).

(** one operation on one column: a failing one leaves its column as it was *)
Definition tick_next (t : tick) : option tick := match t with None => Some None | Some 0 => None | Some (S n) => Some (Some n) end.

(** std::apply([&](auto&... conts) { (op(conts), ...); }, parts): column by column, from the first; [f j col] is None if the operation is undefined *)
Fixpoint each_from (j : nat) (f : nat -> list nat -> option (list nat)) (done todo : dpv) (t : tick) : dres unit :=
  match todo with
  | [] => DOk tt done t
  | col :: tl => match tick_next t with
                 | None => DThrow (done ++ col :: tl)
                 | Some t' => match f j col with
                              | None => DBad UbLostObject
                              | Some col' => each_from (S j) f (done ++ [col']) tl t'
                              end
                 end
  end.
Definition each (f : nat -> list nat -> option (list nat)) : dM unit := fun c t => each_from 0 f [] c t.
(** the same for operations that never throw *)
Definition each_noexcept (f : nat -> list nat -> option (list nat)) : dM unit := fun c t =>
  match each_from 0 f [] c None with DOk tt c' _ => DOk tt c' t | DThrow c' => DThrow c' | DBad r => DBad r end.

(** P 525-532 size(), empty(): of the first column; without fields the class is ill-formed *)
Definition d_size : dM nat := fun c t => match c with [] => DBad UbIllFormed | col :: _ => DOk (length col) c t end.
Definition d_empty : dM bool := fun c t => match c with [] => DBad UbIllFormed | col :: _ => DOk (bool_decide (col = [])) c t end.

(** ** Operations of std::vector on one column *)
Definition v_insert (i : nat) (vs : list nat) (l : list nat) : option (list nat) := if i <=? length l then Some (take i l ++ vs ++ drop i l) else None.
Definition v_erase (i : nat) (l : list nat) : option (list nat) := if i <? length l then Some (take i l ++ drop (S i) l) else None.
Definition v_pop (l : list nat) : option (list nat) := match l with [] => None | _ => Some (take (pred (length l)) l) end.
Definition v_resize (n v : nat) (l : list nat) : list nat := take n l ++ replicate (n - length l) v.
(** the j-th field; a row with fewer fields does not exist *)
Definition field {A} (r : row) (j : nat) (k : nat -> option A) : option A := match r !! j with Some v => k v | None => None end.

(** P 249-251 iterator_(owner, i): asserts i <= size() *)
Definition d_iter (i : nat) : dM nat := dlet n := d_size in if i <=? n then dret i else dbad UbAssert.
(** P 80-82 proxy(owner, i) asserts i < size(); P 70-76 tie(), P 83-90 conversion to value_type *)
Definition d_ref (i : nat) : dM nat := dlet n := d_size in if i <? n then dret i else dbad UbAssert.
Definition gather (i : nat) (c : dpv) : option row := mapM (fun col : list nat => col !! i) c.
Definition d_read (i : nat) : dM row := dlet i := d_ref i in fun c t => match gather i c with Some r => DOk r c t | None => DBad UbLostObject end.
(** P 429-450 front, back, operator[] *)
Definition d_front : dM row := dlet e := d_empty in if e then dbad UbAssert else d_read 0.
Definition d_back : dM row := dlet e := d_empty in if e then dbad UbAssert else dlet n := d_size in d_read (pred n).
(** P 462-523 view<I>() *)
Definition d_view (j : nat) : dM (list nat) := fun c t => match c !! j with Some col => DOk col c t | None => DBad UbIllFormed end.

(** P 557-560 emplace *)
Definition d_emplace (i : nat) (r : row) : dM nat :=
  dlet _ := each (fun j col => field r j (fun v => v_insert i [v] col)) in d_iter i.
(** P 561-564 emplace_back: returns back() *)
Definition d_emplace_back (r : row) : dM nat :=
  dlet _ := each (fun j col => field r j (fun v => Some (col ++ [v]))) in
  dlet e := d_empty in if e then dbad UbAssert else dlet n := d_size in d_ref (pred n).
(** P 568-574 push_back *)
Definition d_push_back (r : row) : dM unit := dlet _ := d_emplace_back r in dret tt.
(** P 545-552 iter_from_last_iter: the position in the last column *)
Definition d_from_last (i : nat) : dM nat := fun c t => match last c with None => DBad UbIllFormed | Some _ => d_iter i c t end.
(** P 578-582 erase(pos) *)
Definition d_erase (i : nat) : dM nat := dlet _ := each (fun _ col => v_erase i col) in d_from_last i.
(** P 583-588 erase(b, e): names a member iters that const_iterator does not have *)
Definition d_erase_range (b e : nat) : dM nat := dbad UbIllFormed.
(** P 592-599 insert of one value *)
Definition d_insert (i : nat) (r : row) : dM nat := d_emplace i r.
(** P 601-608 insert(pos, count, value) *)
Definition d_insert_n (i n : nat) (r : row) : dM nat :=
  dlet _ := each (fun j col => field r j (fun v => v_insert i (replicate n v) col)) in d_from_last i.
(** P 662-664 reserve: only the capacity changes *)
Definition d_reserve : dM unit := each (fun _ col => Some col).

(** P 610-633 insert(pos, first, last).  The source's iterators either copy or move ([moving]; std::move_iterator), are random access or not.
    A moved from value v becomes [mf v].  [ord] is the order in which the fields of the first value are evaluated. *)
Section Range.
  Context (mf : nat -> nat) (moving random : bool) (ord : list nat).
  (** P 624: Traits::get<Is>(value_type( *first))... : for each field a value_type is made from *first *)
  Fixpoint first_fields (o : list nat) (r : row) (acc : gmap nat nat) : option (gmap nat nat) :=
    match o with
    | [] => Some acc
    | j :: tl => match r !! j with
                 | Some v => first_fields tl (if moving then map mf r else r) (<[j := v]> acc)
                 | None => None
                 end
    end.
  Definition first_row (r : row) : option row :=
    match first_fields ord r ∅ with
    | Some m => mapM (fun j => m !! j) (seq 0 (length r))
    | None => None
    end.
  (** P 614-617: at the end; each field of *first is read once *)
  Fixpoint d_append (rs : list row) : dM unit :=
    match rs with [] => dret tt | r :: tl => dlet _ := d_emplace_back r in d_append tl end.
  (** P 627-631: the others, each into one value_type first; ++pos asserts pos != end() *)
  Fixpoint d_insert_more (pos : nat) (rs : list row) : dM unit :=
    match rs with
    | [] => dret tt
    | r :: tl => dlet n := d_size in
                 if pos =? n then dbad UbAssert
                 else dlet pos' := d_emplace (S pos) r in d_insert_more pos' tl
    end.
  Definition d_insert_range (pos : nat) (rs : list row) : dM nat :=
    dlet n := d_size in
    if pos =? n then dlet _ := d_append rs in d_iter pos
    else dlet _ := (if random then d_reserve else dret tt) in
         match rs with
         | [] => d_iter pos
         | r :: tl => match first_row r with
                      | None => dbad UbIllFormed
                      | Some r' => dlet pos' := d_emplace pos r' in dlet _ := d_insert_more pos' tl in d_iter pos
                      end
         end.
End Range.

(** P 656-673 *)
Definition d_clear : dM unit := each_noexcept (fun _ _ => Some []).
Definition d_pop_back : dM unit := each_noexcept (fun _ col => v_pop col).
Definition d_shrink : dM unit := each (fun _ col => Some col).
(** [dfl j]: a value initialised j-th field *)
Definition d_resize (dfl : nat -> nat) (n : nat) : dM unit := each (fun j col => Some (v_resize n (dfl j) col)).
Definition d_resize_v (n : nat) (r : row) : dM unit := each (fun j col => field r j (fun v => Some (v_resize n v col))).

(** P 92-100 proxy = value: field by field *)
Definition d_set (i : nat) (r : row) : dM unit :=
  dlet i := d_ref i in each (fun j col => field r j (fun v => if i <? length col then Some (<[i := v]> col) else None)).

(** ** Programs with several vectors of one type *)
Section Programs.
  (** number of fields, value initialised fields, moved from values *)
  Context (N : nat) (dfl : nat -> nat) (mf : nat -> nat).

  Inductive dop : Type :=
  | DNew (x : nat)
  | DNewCount (x n : nat)                                 (* P 370-372 *)
  | DNewFill (x n : nat) (r : row)                        (* P 366-369 *)
  | DNewRange (x : nat) (moving random : bool) (rs : list row)   (* P 373-377, 384-388 *)
  | DCopy (x y : nat) | DMove (x y : nat)                 (* P 378-383, 392-393 *)
  | DCopyAssign (x y : nat) | DMoveAssign (x y : nat)     (* P 394-395: tuple assignment, column by column *)
  | DSwap (x y : nat)                                     (* P 710-715 *)
  | DPush (x : nat) (r : row) | DEmplaceBack (x : nat) (r : row)
  | DInsert (x i : nat) (r : row)                         (* insert and emplace *)
  | DInsertN (x i n : nat) (r : row)
  | DInsertRange (x i : nat) (moving random : bool) (ord : list nat) (rs : list row)
  | DErase (x i : nat) | DEraseRange (x b e : nat)
  | DPop (x : nat) | DClear (x : nat) | DReserve (x : nat) | DShrink (x : nat)
  | DResize (x n : nat) | DResizeV (x n : nat) (r : row)
  | DAssignN (x n : nat) (r : row)                        (* P 641-643 *)
  | DAssignRange (x : nat) (moving random : bool) (rs : list row)   (* P 645-652, 398-401 *)
  | DSet (x i : nat) (r : row)                            (* x[i] = value *)
  | DSetFrom (x i y j : nat)                              (* P 101-107: x[i] = y[j] *)
  | DSwapRows (x i y j : nat).                            (* P 109-115 swap(x[i], y[j]), P 272-282 iter_swap *)

  (** what a statement returns: nothing or an iterator *)
  Notation dworld := (gmap nat dpv).
  Inductive wres : Type := WOk (w : dworld) (ret : option nat) (t : tick) | WThrow (w : dworld) | WBad (r : ubreason).

  Definition d_none : dpv := replicate N [].
  (** a member function of x *)
  Definition member {A} (x : nat) (m : dM A) (ret : A -> option nat) (w : dworld) (t : tick) : wres :=
    match w !! x with
    | None => WBad UbNoSuchAny
    | Some c => match m c t with DOk a c' t' => WOk (<[x := c']> w) (ret a) t' | DThrow c' => WThrow (<[x := c']> w) | DBad r => WBad r end
    end.
  (** a new vector made by running m on empty columns; if that throws there is no vector *)
  Definition construct {A} (x : nat) (m : dM A) (w : dworld) (t : tick) : wres :=
    match m d_none t with DOk _ c t' => WOk (<[x := c]> w) None t' | DThrow _ => WThrow w | DBad r => WBad r end.
  (** *this = data_parallel_impl(...): the temporary is made first, then moved *)
  Definition renew {A} (x : nat) (m : dM A) (w : dworld) (t : tick) : wres :=
    match w !! x with None => WBad UbNoSuchAny | Some _ => construct x m w t end.
  Definition nores {A} (a : A) : option nat := None.
  (** copying column by column over the present ones *)
  Definition copy_from (d : dpv) : dM unit := each (fun j _ => d !! j).

  (** the swap of two fields as std::swap does it: t = a; a = b; b = t, column by column; the columns belong to x and y *)
  Definition get_cell (x i j : nat) (w : dworld) : option nat := match w !! x with Some c => match c !! j with Some col => col !! i | None => None end | None => None end.
  Definition set_cell (x i j v : nat) (w : dworld) : dworld := alter (alter (fun col : list nat => <[i := v]> col) j) x w.
  Fixpoint swap_cells (x i y j : nat) (cols : list nat) (w : dworld) (t : tick) : wres :=
    match cols with
    | [] => WOk w None t
    | k :: tl =>
        match tick_next t with
        | None => WThrow w
        | Some t' => match get_cell x i k w with
                     | None => WBad UbLostObject
                     | Some a => match get_cell y j k w with
                                 | None => WBad UbLostObject
                                 | Some b => swap_cells x i y j tl (set_cell y j k a (set_cell x i k b w)) t'
                                 end
                     end
        end
    end.
  (** P 101-107 x[i] = y[j]: field by field *)
  Fixpoint copy_cells (x i y j : nat) (cols : list nat) (w : dworld) (t : tick) : wres :=
    match cols with
    | [] => WOk w None t
    | k :: tl =>
        match tick_next t with
        | None => WThrow w
        | Some t' => match get_cell y j k w with
                     | None => WBad UbLostObject
                     | Some b => copy_cells x i y j tl (set_cell x i k b w) t'
                     end
        end
    end.
  (** both proxies are made first *)
  Definition two_refs (x i y j : nat) (k : dworld -> tick -> wres) (w : dworld) (t : tick) : wres :=
    match w !! x, w !! y with
    | Some c, Some d => match d_ref i c None, d_ref j d None with
                        | DOk _ _ _, DOk _ _ _ => k w t
                        | DBad r, _ => WBad r
                        | _, DBad r => WBad r
                        | _, _ => WBad UbIllFormed
                        end
    | _, _ => WBad UbNoSuchAny
    end.

  Definition dstep (o : dop) (w : dworld) (t : tick) : wres :=
    match o with
    | DNew x => WOk (<[x := d_none]> w) None t
    | DNewCount x n => construct x (each (fun j _ => Some (replicate n (dfl j)))) w t
    | DNewFill x n r => construct x (each (fun j _ => field r j (fun v => Some (replicate n v)))) w t
    | DNewRange x mv rnd rs => construct x (d_insert_range mf mv rnd (seq 0 N) 0 rs) w t
    | DCopy x y => match w !! y with Some d => construct x (copy_from d) w t | None => WBad UbNoSuchAny end
    | DMove x y => match w !! y with Some d => WOk (<[x := d]> (<[y := d_none]> w)) None t | None => WBad UbNoSuchAny end
    | DCopyAssign x y => match w !! y with Some d => member x (copy_from d) nores w t | None => WBad UbNoSuchAny end
    | DMoveAssign x y =>
        match w !! x, w !! y with
        | Some c, Some d => WOk (if bool_decide (x = y) then w else <[x := d]> (<[y := d_none]> w)) None t
        | _, _ => WBad UbNoSuchAny
        end
    | DSwap x y =>
        match w !! x, w !! y with Some c, Some d => WOk (<[y := c]> (<[x := d]> w)) None t | _, _ => WBad UbNoSuchAny end
    | DPush x r => member x (d_push_back r) nores w t
    | DEmplaceBack x r => member x (d_emplace_back r) Some w t
    | DInsert x i r => member x (d_insert i r) Some w t
    | DInsertN x i n r => member x (d_insert_n i n r) Some w t
    | DInsertRange x i mv rnd ord rs => member x (d_insert_range mf mv rnd ord i rs) Some w t
    | DErase x i => member x (d_erase i) Some w t
    | DEraseRange x b e => member x (d_erase_range b e) Some w t
    | DPop x => member x d_pop_back nores w t
    | DClear x => member x d_clear nores w t
    | DReserve x => member x d_reserve nores w t
    | DShrink x => member x d_shrink nores w t
    | DResize x n => member x (d_resize dfl n) nores w t
    | DResizeV x n r => member x (d_resize_v n r) nores w t
    | DAssignN x n r => renew x (each (fun j _ => field r j (fun v => Some (replicate n v)))) w t
    | DAssignRange x mv rnd rs => renew x (d_insert_range mf mv rnd (seq 0 N) 0 rs) w t
    | DSet x i r => member x (d_set i r) nores w t
    | DSetFrom x i y j => two_refs x i y j (copy_cells x i y j (seq 0 N)) w t
    | DSwapRows x i y j => two_refs x i y j (swap_cells x i y j (seq 0 N)) w t
    end.
  Fixpoint dexec (l : list dop) (w : dworld) : wres :=
    match l with
    | [] => WOk w None None
    | o :: tl => match dstep o w None with WOk w' _ _ => dexec tl w' | WThrow w' => WThrow w' | WBad r => WBad r end
    end.
End Programs.
Notation dworld := (gmap nat dpv).

(** ** Comparison, P 117-164, 206-220 *)
Section Compare.
  (** a <=> b of the j-th field: None is unordered; a == b is not used by this code *)
  Context (cmp : nat -> nat -> nat -> option comparison).
  (** P 117-146: the fold; [found]: unequal_finded, [res]: cmp_res *)
  Fixpoint cmp_fields (j : nat) (a b : row) (found : bool) (res : option comparison) : option comparison :=
    match a, b with
    | x :: a', y :: b' =>
        if found then cmp_fields (S j) a' b' true res
        else let res' := cmp j x y in
             cmp_fields (S j) a' b' (if bool_decide (res' = Some Eq) then false else true) res'
    | _, _ => res
    end.
  Definition compare_by_fields (a b : row) : option comparison := cmp_fields 0 a b false (Some Eq).
  (** P 151-158 == *)
  Definition proxy_eq (a b : row) : bool := bool_decide (compare_by_fields a b = Some Eq).
  (** P 537-541: std::ranges::equal of two sized random access ranges *)
  Fixpoint rows_equal (c d : dpv) (n : nat) (i : nat) : option bool :=
    match n with
    | 0 => Some true
    | S n' => match gather i c, gather i d with
              | Some a, Some b => if proxy_eq a b then rows_equal c d n' (S i) else Some false
              | _, _ => None
              end
    end.
  Definition d_eq (c d : dpv) : option bool :=
    match c, d with
    | a :: _, b :: _ => if length a =? length b then rows_equal c d (length a) 0 else Some false
    | _, _ => None
    end.
End Compare.
