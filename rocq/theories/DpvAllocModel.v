(** Allocators of data_parallel_vector: which allocator the columns get and keep, and what moving does to their storage.
    P = include/anyany/data_parallel_vector.hpp.  Each column is a std::vector whose allocator is the vector's allocator rebound (P 47-55); rebinding
    keeps the identity of an allocator, so an allocator is a number.  std::vector is modelled from the standard. *)
From stdpp Require Import gmap list.
From Verif Require Import AnyModel DpvModel.

(** std::allocator_traits: propagation, select_on_container_copy_construction, allocator_type() if there is one *)
Record atraits := ATraits { pocca : bool; pocma : bool; pocs : bool; socc : nat -> nat; dflt : option nat }.
(** one column: elements, allocator, storage (none before the first allocation) and the allocator it was allocated with *)
Record acol := ACol { c_els : list nat; c_al : nat; c_buf : option (nat * nat) }.
Record aworld := AW { aw_vecs : gmap nat (list acol); aw_next : nat }.
Inductive ares := AOk (w : aworld) | AThrow (w : aworld) | ABad (r : ubreason).

Section Alloc.
  Context (tr : atraits).
  (** the oracle at each allocation: whether it succeeds; at each assignment: whether the present storage is reused *)
  Context (alloc reuse : nat -> bool).
  (** what remains in a column whose elements were moved from one by one *)
  Context (left : list nat -> list nat).

  (** a step on a column of the target and the corresponding column of the source; None: it throws and leaves both as they were *)
  Notation colstep := (acol -> acol -> nat -> option (acol * acol * nat)).
  Definition fresh (els : list nat) (a k : nat) : option (acol * nat) :=
    match els with [] => Some (ACol [] a None, k) | _ => if alloc k then Some (ACol els a (Some (k, a)), S k) else None end.
  (** elements put into a column that exists *)
  Definition refill (els : list nat) (a : nat) (t : acol) (k : nat) : option (acol * nat) :=
    if reuse k && bool_decide (c_al t = a) && bool_decide (c_buf t <> None) then Some (ACol els a (c_buf t), S k) else fresh els a k.
  Definition stolen (s : acol) : acol := ACol [] (c_al s) None.
  (** vector(const vector&, a), vector(vector&&), vector(vector&&, a) *)
  Definition v_copy (a : acol -> nat) : colstep := fun t s k =>
    match fresh (c_els s) (a s) k with Some (t', k') => Some (t', s, k') | None => None end.
  Definition v_move : colstep := fun t s k => Some (s, stolen s, k).
  Definition v_move_with (a : nat) : colstep := fun t s k =>
    if decide (a = c_al s) then v_move t s k
    else match fresh (c_els s) a k with Some (t', k') => Some (t', ACol (left (c_els s)) (c_al s) (c_buf s), k') | None => None end.
  (** operator=(const vector&), operator=(vector&&) *)
  Definition v_copy_assign : colstep := fun t s k =>
    match refill (c_els s) (if pocca tr then c_al s else c_al t) t k with Some (t', k') => Some (t', s, k') | None => None end.
  Definition v_move_assign : colstep := fun t s k =>
    if pocma tr then v_move t s k
    else if decide (c_al t = c_al s) then v_move t s k
    else match refill (c_els s) (c_al t) t k with Some (t', k') => Some (t', ACol (left (c_els s)) (c_al s) (c_buf s), k') | None => None end.

  (** column by column, from the first: the columns of target and source afterwards, whether it threw *)
  Fixpoint pairs (f : colstep) (dt ds ts ss : list acol) (k : nat) : option (list acol * list acol * nat * bool) :=
    match ts, ss with
    | [], [] => Some (dt, ds, k, false)
    | t :: ts', s :: ss' => match f t s k with
                            | Some (t', s', k') => pairs f (dt ++ [t']) (ds ++ [s']) ts' ss' k'
                            | None => Some (dt ++ ts, ds ++ ss, k, true)
                            end
    | _, _ => None
    end.
  (** x is made from y.  (The order in which the columns of x are made is unspecified; here it is the first to last.) *)
  Definition a_from (f : colstep) (x y : nat) (w : aworld) : ares :=
    if decide (x = y) then ABad UbIllFormed
    else match aw_vecs w !! y with
         | None => ABad UbNoSuchAny
         | Some ss => match pairs f [] [] (map stolen ss) ss (aw_next w) with
                      | Some (ts', ss', k', false) => AOk (AW (<[x := ts']> (<[y := ss']> (aw_vecs w))) k')
                      | Some (_, ss', k', true) => AThrow (AW (<[y := ss']> (aw_vecs w)) k')
                      | None => ABad UbIllFormed
                      end
         end.
  (** x = y; a vector copied to itself stays *)
  Definition a_assign (f : colstep) (x y : nat) (w : aworld) : ares :=
    match aw_vecs w !! x, aw_vecs w !! y with
    | Some ts, Some ss =>
        if decide (x = y) then AOk w
        else match pairs f [] [] ts ss (aw_next w) with
             | Some (ts', ss', k', thrown) => let w' := AW (<[x := ts']> (<[y := ss']> (aw_vecs w))) k' in if thrown : bool then AThrow w' else AOk w'
             | None => ABad UbIllFormed
             end
    | _, _ => ABad UbNoSuchAny
    end.
  (** N columns with [els]: parts(container_t<Is>(..., alloc)...) *)
  Fixpoint a_cols (done : list acol) (els : list (list nat)) (a k : nat) : option (list acol * nat) :=
    match els with
    | [] => Some (done, k)
    | l :: tl => match fresh l a k with Some (c, k') => a_cols (done ++ [c]) tl a k' | None => None end
    end.
  Definition a_new (x : nat) (els : list (list nat)) (a : nat) (w : aworld) : ares :=
    match a_cols [] els a (aw_next w) with
    | Some (cs, k') => AOk (AW (<[x := cs]> (aw_vecs w)) k')
    | None => AThrow w
    end.
  (** tuple::swap, vector::swap on each column: undefined for unequal allocators that do not propagate *)
  Fixpoint swap_cols (ts ss : list acol) : option (list acol * list acol) :=
    match ts, ss with
    | [], [] => Some ([], [])
    | t :: ts', s :: ss' =>
        if pocs tr || bool_decide (c_al t = c_al s) then
          match swap_cols ts' ss' with Some (a, b) => Some (s :: a, t :: b) | None => None end
        else None
    | _, _ => None
    end.
  Definition a_swap (x y : nat) (w : aworld) : ares :=
    match aw_vecs w !! x, aw_vecs w !! y with
    | Some ts, Some ss => match swap_cols ts ss with
                          | Some (a, b) => AOk (if decide (x = y) then w else AW (<[y := b]> (<[x := a]> (aw_vecs w))) (aw_next w))
                          | None => ABad UbWrongAllocator
                          end
    | _, _ => ABad UbNoSuchAny
    end.
  (** P 641-652, 398-401 assign: *this = data_parallel_impl(...): a temporary with allocator_type() *)
  Definition a_assign_values (x : nat) (els : list (list nat)) (w : aworld) : ares :=
    match dflt tr with
    | None => ABad UbIllFormed
    | Some a =>
        match aw_vecs w !! x with
        | None => ABad UbNoSuchAny
        | Some ts => match a_cols [] els a (aw_next w) with
                     | None => AThrow w
                     | Some (cs, k') =>
                         match pairs v_move_assign [] [] ts cs k' with
                         | Some (ts', _, k'', thrown) => let w' := AW (<[x := ts']> (aw_vecs w)) k'' in if thrown : bool then AThrow w' else AOk w'
                         | None => ABad UbIllFormed
                         end
                     end
        end
    end.

  Inductive aop :=
  | ANew (x : nat) (els : list (list nat)) (a : nat)   (* P 362-377, 384-388 *)
  | ANewDefault (x : nat) (els : list (list nat))      (* the same without an allocator, P 360 *)
  | ACopy (x y : nat)                                  (* P 392 *)
  | ACopyWith (x y a : nat)                            (* P 378-380 *)
  | AMove (x y : nat)                                  (* P 393, 701 *)
  | AMoveWith (x y a : nat)                            (* P 381-383 *)
  | ACopyAssign (x y : nat) | AMoveAssign (x y : nat)  (* P 394-395, 707-708 *)
  | ASwap (x y : nat)                                  (* P 710-715 *)
  | AAssign (x : nat) (els : list (list nat))          (* P 641-652, 398-401, 703-706 *)
  | AEdit (x : nat) (m : dpv -> option dpv).           (* any other member function: elements change column by column *)
  Definition aop_wf (N : nat) (o : aop) : Prop :=
    match o with
    | ANew _ els _ | ANewDefault _ els | AAssign _ els => length els = N
    | AEdit _ m => forall c c', m c = Some c' -> length c' = length c
    | _ => True
    end.
  Fixpoint put_els (cols : list acol) (els : list (list nat)) (k : nat) : list acol * nat :=
    match cols, els with
    | c :: tl, l :: ls => let c' := if bool_decide (c_els c = l) then c else ACol l (c_al c) (if reuse k then c_buf c else Some (k, c_al c)) in
                          let '(tl', k') := put_els tl ls (S k) in (c' :: tl', k')
    | _, _ => ([], k)
    end.
  Definition a_edit (x : nat) (m : dpv -> option dpv) (w : aworld) : ares :=
    match aw_vecs w !! x with
    | None => ABad UbNoSuchAny
    | Some cs => match m (map c_els cs) with
                 | None => ABad UbAssert
                 | Some els => let '(cs', k') := put_els cs els (aw_next w) in AOk (AW (<[x := cs']> (aw_vecs w)) k')
                 end
    end.

  Definition astep (o : aop) (w : aworld) : ares :=
    match o with
    | ANew x els a => a_new x els a w
    | ANewDefault x els => match dflt tr with Some a => a_new x els a w | None => ABad UbIllFormed end
    | ACopy x y => a_from (v_copy (fun s => socc tr (c_al s))) x y w
    | ACopyWith x y a => a_from (v_copy (fun _ => a)) x y w
    | AMove x y => a_from v_move x y w
    | AMoveWith x y a => a_from (v_move_with a) x y w
    | ACopyAssign x y => a_assign v_copy_assign x y w
    | AMoveAssign x y => if decide (x = y) then ABad UbAssert else a_assign v_move_assign x y w   (* std::vector says nothing of v = std::move(v) *)
    | ASwap x y => a_swap x y w
    | AAssign x els => a_assign_values x els w
    | AEdit x m => a_edit x m w
    end.
End Alloc.
