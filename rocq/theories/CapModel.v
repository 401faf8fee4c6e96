(** Capacity of data_parallel_vector: which operations reallocate which column.
    P = include/anyany/data_parallel_vector.hpp.  Elements are left out (DpvModel.v has them); copying and moving elements does not throw here,
    allocation may.  std::vector is modelled from the standard: it reallocates only if its capacity is too small, and then allocates at least
    what is needed, at most max_size(), as an arbitrary oracle says. *)
From stdpp Require Import list.

(** one column: size, capacity, the identity of its storage *)
Record vcol := VCol { v_size : nat; v_cap : nat; v_buf : nat }.
(** storage given out so far counts the questions to the oracle *)
Record cstate := CSt { s_cols : list vcol; s_next : nat }.
Inductive cres := COk (s : cstate) | CThrow (s : cstate) | CBad.

Section Cap.
  (** the oracle at each allocation: None: it fails; Some e: e elements more than asked for *)
  Context (alloc : nat -> option nat).
  (** shrink_to_fit is a request: whether column storage [n] is reallocated, and how much of the excess stays *)
  Context (shrinks : nat -> option nat).
  (** max_size() of the j-th column *)
  Context (mx : nat -> nat).

  (** new storage for at least [n] elements *)
  Definition v_realloc (j n : nat) (c : vcol) (k : nat) : option (vcol * nat) :=
    if n <=? mx j then match alloc k with
                       | Some e => Some (VCol (v_size c) (Nat.min (n + e) (mx j)) k, S k)
                       | None => None
                       end
    else (* length_error *) None.
  (** an operation on a column: None: it throws and changes nothing *)
  Notation colop := (nat -> vcol -> nat -> option (vcol * nat)).
  Definition v_reserve (n : nat) : colop := fun j c k => if v_cap c <? n then v_realloc j n c k else Some (c, k).
  (** emplace, emplace_back, insert of [n] elements *)
  Definition v_grow (n : nat) : colop := fun j c k =>
    let m := v_size c + n in
    if v_cap c <? m then match v_realloc j m c k with
                         | Some (c', k') => Some (VCol m (v_cap c') (v_buf c'), k')
                         | None => None
                         end
    else Some (VCol m (v_cap c) (v_buf c), k).
  Definition v_cut (n : nat) : colop := fun j c k => Some (VCol n (v_cap c) (v_buf c), k).
  Definition v_resize (n : nat) : colop := fun j c k => if v_size c <? n then v_grow (n - v_size c) j c k else v_cut n j c k.
  (** std::vector::shrink_to_fit: nothing happens if it throws *)
  Definition v_shrink : colop := fun j c k =>
    match shrinks k with
    | None => Some (c, k)
    | Some e => if v_size c <? v_cap c then Some (VCol (v_size c) (Nat.min (v_size c + e) (v_cap c)) k, S k) else Some (c, k)
    end.

  (** std::apply([&](auto&... conts) { (op(conts), ...); }, parts) *)
  Fixpoint c_each (j : nat) (f : colop) (done todo : list vcol) (k : nat) : cres :=
    match todo with
    | [] => COk (CSt done k)
    | c :: tl => match f j c k with
                 | Some (c', k') => c_each (S j) f (done ++ [c']) tl k'
                 | None => CThrow (CSt (done ++ c :: tl) k)
                 end
    end.
  Definition c_all (f : colop) (s : cstate) : cres := c_each 0 f [] (s_cols s) (s_next s).
  (** P 529-532 size() *)
  Definition c_size (s : cstate) : option nat := match s_cols s with [] => None | c :: _ => Some (v_size c) end.
  (** std::min over an initializer_list *)
  Fixpoint min_list (l : list nat) : option nat :=
    match l with [] => None | x :: l => match min_list l with Some y => Some (Nat.min x y) | None => Some x end end.
  (** P 454-457 capacity() *)
  Definition c_capacity (s : cstate) : option nat := min_list (map v_cap (s_cols s)).
  (** P 458-460 max_size() *)
  Definition c_max_size (s : cstate) : option nat := min_list (imap (fun j _ => mx j) (s_cols s)).

  Inductive cop :=
  | CEmplaceBack          (* P 561-564, 568-574 *)
  | CEmplace (i : nat)    (* P 557-560, 592-599 *)
  | CInsertN (i n : nat)  (* P 601-608 *)
  | CErase (i : nat)      (* P 578-582 *)
  | CInsertRange (i n : nat) (random : bool)  (* P 610-633, n elements *)
  | CClear | CPopBack     (* P 656-661 *)
  | CReserve (n : nat)    (* P 662-664 *)
  | CResize (n : nat)     (* P 665-670 *)
  | CShrink.              (* P 671-673 *)
  Fixpoint c_repeat (n : nat) (f : colop) (s : cstate) : cres :=
    match n with 0 => COk s | S n => match c_all f s with COk s' => c_repeat n f s' | r => r end end.
  Definition c_step (o : cop) (s : cstate) : cres :=
    match c_size s with
    | None => CBad
    | Some sz =>
      match o with
      | CEmplaceBack => c_all (v_grow 1) s
      | CEmplace i => if i <=? sz then c_all (v_grow 1) s else CBad
      | CInsertN i n => if i <=? sz then c_all (v_grow n) s else CBad
      | CErase i => if i <? sz then c_all (fun j c => v_cut (pred (v_size c)) j c) s else CBad
      | CInsertRange i n random =>
          if sz <? i then CBad
          else if i =? sz then c_repeat n (v_grow 1) s
          else if random then match c_all (v_reserve (sz + n)) s with COk s' => c_repeat n (v_grow 1) s' | r => r end
          else c_repeat n (v_grow 1) s
      | CClear => c_all (v_cut 0) s
      | CPopBack => if 0 <? sz then c_all (fun j c => v_cut (pred (v_size c)) j c) s else CBad
      | CReserve n => c_all (v_reserve n) s
      | CResize n => c_all (v_resize n) s
      | CShrink => c_all v_shrink s
      end
    end.
  (** an empty vector with N columns: no storage (storage 0 .. N-1 names the null buffers) *)
  Definition c_empty (N : nat) : cstate := CSt (map (VCol 0 0) (seq 0 N)) N.
End Cap.
