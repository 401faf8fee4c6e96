(** Model of basic_variant_swarm.
    Sources: S = include/anyany/variant_swarm.hpp, SD = include/anyany/noexport/variant_swarm_details.hpp.
    Types are numbers, [cont T] is Container<T>; values are numbers.  The container is one with push_back (std::vector, std::list)
    or an associative one without it (std::set). *)
From stdpp Require Import gmap list.
From Verif Require Import AnyModel.

Inductive ckind : Set := KBack | KSet.

(** ** The standard containers *)
(** what a member function returns: nothing, an iterator (its position) or reference, or the pair of std::set::insert *)
Inductive sret : Set := RVoid | RIdx (n : nat) | RPair (n : nat) (fresh : bool).
(** c.push_back(v) of a sequence; c.insert(v) of a set; c.emplace_back(v), c.emplace(v) *)
Definition set_insert (v : nat) (l : list nat) : list nat * sret :=
  let lo := filter (fun x => x < v) l in
  let hi := filter (fun x => v < x) l in
  (lo ++ v :: hi, RPair (length lo) (negb (bool_decide (v ∈ l)))).
Definition c_insert (k : ckind) (v : nat) (l : list nat) : list nat * sret :=
  match k with KBack => (l ++ [v], RVoid) | KSet => set_insert v l end.
Definition c_emplace (k : ckind) (v : nat) (l : list nat) : list nat * sret :=
  match k with KBack => (l ++ [v], RIdx (length l)) | KSet => set_insert v l end.
(** c.insert(c.end(), b, e) of a sequence, c.insert(b, e) of a set *)
Definition c_insert_all (k : ckind) (vs : list nat) (l : list nat) : list nat * sret :=
  match k with
  | KBack => (l ++ vs, RIdx (length l))
  | KSet => (fold_left (fun acc v => fst (set_insert v acc)) vs l, RVoid)
  end.
(** c.erase(b, e); a valid range is required *)
Definition c_erase (b e : nat) (l : list nat) : option (list nat * sret) :=
  if (b <=? e) && (e <=? length l) then Some (take b l ++ drop e l, RIdx b) else None.

(** ** The swarm *)
(** S 45: std::tuple<Container<Ts>...> *)
Notation swarm := (list (list nat)).
(** the swarms of a program *)
Notation sworld := (gmap nat (list (list nat))).
Section Swarm.
  (** Container, as a function on types *)
  Context (cont : nat -> nat) (k : ckind) (Ts : list nat).

  Inductive sres (A : Type) : Type := SOk (a : A) | SBad (r : ubreason).
  Global Arguments SOk {A} _.
  Global Arguments SBad {A} _.

  (** std::get<X>(tuple): X must occur exactly once among the element types *)
  Definition get_index (X : nat) : option nat :=
    match filter (fun i => map cont Ts !! i = Some X) (seq 0 (length Ts)) with [i] => Some i | _ => None end.
  (** applies a container's member function to std::get<X>(containers) *)
  Definition at_container (X : nat) (f : list nat -> option (list nat * sret)) (c : swarm) : sres (swarm * sret) :=
    match get_index X with
    | None => SBad UbIllFormed
    | Some i => match c !! i with
                | None => SBad UbIllFormed
                | Some l => match f l with Some (l', r) => SOk (<[i := l']> c, r) | None => SBad UbLostObject end
                end
    end.

  (** SD 15-46 inserter::insert(value_t&&), insert(const value_t&); overload resolution picks the one of the argument's type *)
  Definition s_insert (T v : nat) : swarm -> sres (swarm * sret) := at_container (cont T) (fun l => Some (c_insert k v l)).
  (** SD 48-56 insert(initializer_list) *)
  Definition s_insert_list (T : nat) (vs : list nat) : swarm -> sres (swarm * sret) := at_container (cont T) (fun l => Some (c_insert_all k vs l)).
  (** S 62-72 insert(It, It): looks for the *value* type among the containers' types; the found container's own elements have some type U with
      cont U = T, and a T is not converted to it *)
  Definition s_insert_range (T : nat) (vs : list nat) (c : swarm) : sres (swarm * sret) :=
    match get_index T with
    | Some i => if bool_decide (Ts !! i = Some T) then at_container T (fun l => Some (c_insert_all k vs l)) c else SBad UbIllFormed
    | None => SBad UbIllFormed
    end.
  (** S 78-89 emplace<T>(args...) *)
  Definition s_emplace (T v : nat) : swarm -> sres (swarm * sret) := at_container (cont T) (fun l => Some (c_emplace k v l)).
  (** SD 58-63 erase *)
  Definition s_erase (T i : nat) : swarm -> sres (swarm * sret) := at_container (cont T) (c_erase i (S i)).
  Definition s_erase_range (T b e : nat) : swarm -> sres (swarm * sret) := at_container (cont T) (c_erase b e).

  (** S 117-132 view<T>() *)
  Definition s_view (T : nat) (c : swarm) : option (list nat) := match get_index (cont T) with Some i => c !! i | None => None end.
  (** S 97-108 count *)
  Definition s_count (T : nat) (c : swarm) : option nat := length <$> s_view T c.
  (** S 109-115: a fold over + is ill-formed for an empty pack *)
  Definition s_size (c : swarm) : option nat := match c with [] => None | _ => Some (foldr Nat.add 0 (map length c)) end.
  (** S 93-96 *)
  Definition s_empty (c : swarm) : bool := forallb (fun l => match l with [] => true | _ => false end) c.

  (** ** Programs with several swarms of one type *)
  Inductive sop : Type :=
  | SNew (x : nat)
  | SCopy (x y : nat)                           (* basic_variant_swarm x(y); implicitly defined *)
  | SMove (x y : nat)                           (* x(std::move(y)): the moved from containers are empty *)
  | SInsert (x T v : nat)                       (* x.insert(v), also aa::inserter(x)(v), S 244-249 *)
  | SInsertList (x T : nat) (vs : list nat)
  | SEmplace (x T v : nat)
  | SErase (x T i : nat)
  | SEraseRange (x T b e : nat)
  | SSwap (x y : nat).                          (* S 56-61: tuple swap, container by container *)

  Definition on (x : nat) (f : swarm -> sres (swarm * sret)) (w : sworld) : sres (sworld * sret) :=
    match w !! x with
    | None => SBad UbNoSuchAny
    | Some c => match f c with SOk (c', r) => SOk (<[x := c']> w, r) | SBad e => SBad e end
    end.
  Definition sstep (o : sop) (w : sworld) : sres (sworld * sret) :=
    match o with
    | SNew x => SOk (<[x := map (fun _ => []) Ts]> w, RVoid)
    | SCopy x y => match w !! y with Some c => SOk (<[x := c]> w, RVoid) | None => SBad UbNoSuchAny end
    | SMove x y => match w !! y with Some c => SOk (<[x := c]> (<[y := map (fun _ => []) c]> w), RVoid) | None => SBad UbNoSuchAny end
    | SInsert x T v => on x (s_insert T v) w
    | SInsertList x T vs => on x (s_insert_list T vs) w
    | SEmplace x T v => on x (s_emplace T v) w
    | SErase x T i => on x (s_erase T i) w
    | SEraseRange x T b e => on x (s_erase_range T b e) w
    | SSwap x y =>
        match w !! x, w !! y with
        | Some c, Some d => SOk (<[y := zip_with (fun a _ => a) c d]> (<[x := zip_with (fun _ b => b) c d]> w), RVoid)
        | _, _ => SBad UbNoSuchAny
        end
    end.
  Fixpoint sexec (l : list sop) (w : sworld) : sres sworld :=
    match l with [] => SOk w | o :: tl => match sstep o w with SOk (w', _) => sexec tl w' | SBad e => SBad e end end.

  (** ** Visiting *)
  Section Visit.
    (** visitor state, what the visitor returns *)
    Context {St R : Type}.
    (** v(val): new state, the value left in val (it is passed as an lvalue), the result; [inr]: the call throws *)
    Definition visitor : Type := nat -> nat -> St -> (St * nat * option R) + (St * nat).
    (** out_visitor(r) *)
    Definition out_visitor : Type := R -> St -> option St.
    Inductive vres : Type :=
    | VDone (s : St) (c : swarm)
    | VThrow (s : St) (c : swarm)
    | VBad (r : ubreason).

    (** S 139-144 apply_visitor *)
    Definition apply_visitor (v : visitor) (out : out_visitor) (T x : nat) (s : St) : (St * nat) + (St * nat) :=
      match v T x s with
      | inl (s', x', None) => inl (s', x')
      | inl (s', x', Some r) => match out r s' with Some s'' => inl (s'', x') | None => inr (s', x') end
      | inr (s', x') => inr (s', x')
      end.
    (** std::ranges::for_each over one container; on an exception the rest stays as it is *)
    Fixpoint for_each (v : visitor) (out : out_visitor) (T : nat) (l : list nat) (s : St) : bool * St * list nat :=
      match l with
      | [] => (true, s, [])
      | x :: tl =>
          match apply_visitor v out T x s with
          | inl (s', x') => let '(ok, s'', tl') := for_each v out T tl s' in (ok, s'', x' :: tl')
          | inr (s', x') => (false, s', x' :: tl)
          end
      end.
    (** S 136-151, 187-202 visit<Types...>(v, out_visitor) *)
    Fixpoint s_visit (v : visitor) (out : out_visitor) (Types : list nat) (c : swarm) (s : St) : vres :=
      match Types with
      | [] => VDone s c
      | T :: tl =>
          match get_index (cont T) with
          | None => VBad UbIllFormed
          | Some i => match c !! i with
                      | None => VBad UbIllFormed
                      | Some l => let '(ok, s', l') := for_each v out T l s in
                                  let c' := <[i := l']> c in
                                  if ok then s_visit v out tl c' s' else VThrow s' c'
                      end
          end
      end.
    (** S 152-159, 203-210 visit_all *)
    Definition s_visit_all (v : visitor) (out : out_visitor) : swarm -> St -> vres := s_visit v out Ts.
  End Visit.
  Global Arguments vres : clear implicits.

  (** S 161-173, 211-225 visit_copy: out is a position in a buffer; the value is written and out incremented *)
  Section VisitCopy.
    Context {St R : Type}.
    Record outst : Type := OutSt { os_user : St; os_buf : list R; os_pos : nat; os_bad : bool }.
    Definition lift_visitor (v : @visitor St R) : @visitor outst R := fun T x s =>
      match v T x (os_user s) with
      | inl (u, x', r) => inl (OutSt u (os_buf s) (os_pos s) (os_bad s), x', r)
      | inr (u, x') => inr (OutSt u (os_buf s) (os_pos s) (os_bad s), x')
      end.
    (** the output operation; writing past the end is undefined *)
    Definition write_out : @out_visitor outst R := fun r s =>
      Some (if os_pos s <? length (os_buf s) then OutSt (os_user s) (<[os_pos s := r]> (os_buf s)) (S (os_pos s)) (os_bad s)
            else OutSt (os_user s) (os_buf s) (os_pos s) true).
    Definition s_visit_copy (v : @visitor St R) (Types : list nat) (c : swarm) (buf : list R) (pos : nat) (u : St) : vres outst :=
      match s_visit (lift_visitor v) write_out Types c (OutSt u buf pos false) with
      | VDone s c' => if os_bad s then VBad UbLostObject else VDone s c'
      | VThrow s c' => if os_bad s then VBad UbLostObject else VThrow s c'
      | VBad r => VBad r
      end.
    (** S 174-183, 226-233 visit_copy_all *)
    Definition s_visit_copy_all (v : @visitor St R) : swarm -> list R -> nat -> St -> vres outst := s_visit_copy v Ts.
  End VisitCopy.
End Swarm.
