(** Model of the layout of basic_any and of the view types in memory.
    Source: A = include/anyany/anyany.hpp, D = include/anyany/noexport/anyany_details.hpp.

    How a compiler lays out a class is not in the source: [place] is the rule of the Itanium C++ ABI (section 2.4) that gcc and clang
    follow, for classes without virtual functions and virtual bases.  Simplified: of the subobjects that compete for an address only empty ones
    are followed (an allocator with data has no empty subobject of the type of a plugin); all classes here are not POD for the purpose of layout
    (private members, constructors), so the tail of a base or [[no_unique_address]] member may be used by what follows. *)
From stdpp Require Import list.

(** a base or member: sizeof, the bytes of it that are data, alignof, is it empty, the types of its empty subobjects at offset 0,
    is it a base or [[no_unique_address]] *)
Record member : Set := Member { m_size : nat; m_data : nat; m_align : nat; m_empty : bool; m_types : list nat; m_shares : bool }.
Definition plain (size align : nat) : member := Member size size align false [] false.

(** n rounded up to a multiple of a *)
Definition up (n a : nat) : nat := (n + (a - 1)) / a * a.

(** a class under construction: dsize, sizeof, alignof, empty subobjects at their offsets *)
Record state : Set := State { s_data : nat; s_size : nat; s_align : nat; s_empties : list (nat * nat) }.
Definition conflict (e : list (nat * nat)) (ts : list nat) (off : nat) : bool :=
  existsb (fun x => (x.2 =? off) && existsb (Nat.eqb x.1) ts) e.
(** the first of off, off + a, off + 2a, … without conflict: at most one step per empty subobject placed *)
Fixpoint search (tries : nat) (e : list (nat * nat)) (ts : list nat) (a off : nat) : option nat :=
  if conflict e ts off then match tries with 0 => None | S n => search n e ts a (off + a) end else Some off.

(** Itanium C++ ABI 2.4 II; None: never, see search_found *)
Definition place (st : state) (m : member) : option (nat * state) :=
  if m_shares m && m_empty m then
    match (if conflict (s_empties st) (m_types m) 0 then search (length (s_empties st)) (s_empties st) (m_types m) (m_align m) (up (s_data st) (m_align m))
           else Some 0) with
    | Some off => Some (off, State (s_data st) (Nat.max (s_size st) (off + m_size m)) (Nat.max (s_align st) (m_align m))
                               (((fun t => (t, off)) <$> m_types m) ++ s_empties st))
    | None => None
    end
  else
    let off := up (s_data st) (m_align m) in
    Some (off, State (off + (if m_shares m then m_data m else m_size m)) (Nat.max (s_size st) (off + m_size m))
                 (Nat.max (s_align st) (m_align m)) (s_empties st)).
Fixpoint place_all (st : state) (ms : list member) : option (list nat * state) :=
  match ms with
  | [] => Some ([], st)
  | m :: ms => match place st m with
               | None => None
               | Some (off, st) => match place_all st ms with None => None | Some (offs, st) => Some (off :: offs, st) end
               end
  end.
(** a class: offsets of its bases and members, sizeof, alignof, dsize, types of empty subobjects at offset 0 *)
Record layout : Set := Layout { l_offs : list nat; l_size : nat; l_align : nat; l_data : nat; l_types : list nat }.
Definition lay (ms : list member) : option layout :=
  match place_all (State 0 0 1 []) ms with
  | None => None
  | Some (offs, st) => Some (Layout offs (up (Nat.max 1 (s_size st)) (s_align st)) (s_align st) (s_data st)
                               ((fun x => x.1) <$> filter (fun x => x.2 = 0) (s_empties st)))
  end.
(** a class as a base: empty when nothing in it is data; its own type (named) is one of its empty subobjects *)
Definition as_base (name : nat) (l : layout) : member :=
  Member (l_size l) (l_data l) (l_align l) (l_data l =? 0) (name :: l_types l) true.

(** sizes on the supported 64-bit platforms: void* and size_t; std::max_align_t *)
Definition word : nat := 8.
Definition max_align : nat := 16.

(** an empty plugin as a base *)
Definition empty_plugin (t : nat) : member := Member 1 0 1 true [t] true.
(** A 527-528, D 186-200, 408-410 construct_interface: one class with the different plugins as bases *)
Definition interface (name : nat) (plugins : list member) : option member :=
  match lay plugins with Some l => Some (as_base name l) | None => None end.

(** A 1117-1121 the union: alignas(SooS == 0 ? alignof(size_t) : alignof(std::max_align_t)) std::byte data[SooS]; size_t size_allocated *)
Definition union_align (soos : nat) : nat := if soos =? 0 then word else max_align.
Definition storage (soos : nat) : member := plain (up (Nat.max soos word) (union_align soos)) (union_align soos).
(** A 1108-1122 basic_any: construct_interface, vtable_ptr, value_ptr, the union, alloc *)
Definition any_members (soos : nat) (interface alloc : member) : list member :=
  [interface; plain word word; plain word word; storage soos; alloc].
Definition any_layout (soos : nat) (interface alloc : member) : option layout := lay (any_members soos interface alloc).
(** A 1113 static_assert(SooS == 0 || SooS >= sizeof(size_t)) *)
Definition soos_ok (soos : nat) : bool := (soos =? 0) || (word <=? soos).
(** A 271 default_any_soos; D 388-391 soo_buffer_size *)
Definition default_any_soos : nat := 64 - 3 * word.
Definition soo_buffer_size (n : nat) : nat := if n =? 0 then 0 else Nat.max max_align n.
(** alloc, where [[no_unique_address]] is honoured or not (A 26-38) *)
Definition empty_alloc (honoured : bool) (t : nat) : member := Member 1 0 1 true [t] honoured.

(** A 532-543 vtable_view: a pointer; A 545-552: for a single method its value, in a table of its own *)
Definition view_base (value : option (nat * nat)) : member :=
  match value with
  | None => Member word word word false [] true
  | Some (size, align) => Member size size align false [] true
  end.
(** A 565-567 poly_ref, 610-614 const_poly_ref: construct_interface, vtable_view, value_ptr *)
Definition ref_layout (interface : member) (value : option (nat * nat)) : option layout := lay [interface; view_base value; plain word word].
(** A 864-869, 931-936 stateful::ref and cref: construct_interface, value_ptr, the table, which is [[no_unique_address]] *)
Definition stateful_layout (interface table : member) : option layout := lay [interface; plain word word; table].
