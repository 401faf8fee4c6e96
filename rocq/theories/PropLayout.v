(** Layout of anys and views in memory (C93). *)
From stdpp Require Import list.
From Verif Require Import LayoutModel LayoutSpec LayoutProofs.

(** the members of an any are aligned, inside it, and share no data, whatever the interface and the allocator hold *)
Theorem C93_members_apart : forall soos i al, sensible i -> sensible al ->
  exists l, any_layout soos i al = Some l /\ laid_out (any_members soos i al) l.
Proof. exact any_laid_out. Qed.
Print Assumptions C93_members_apart.
(** the buffer of SooS bytes and size_allocated, which is where it starts, are inside and over nothing else *)
Theorem C93_buffer_apart : forall soos i al, sensible i -> sensible al ->
  exists l ob ov op od oa, any_layout soos i al = Some l /\ l_offs l = [ob; ov; op; od; oa] /\
    aligned (union_align soos) od /\ aligned (union_align soos) (l_align l) /\ aligned (l_align l) (l_size l) /\
    apart ov word op word /\
    forall n, n <= Nat.max soos word ->
      within od n (l_size l) /\ apart od n ov word /\ apart od n op word /\ apart od n oa (occupies al) /\ apart od n ob (occupies i).
Proof. exact value_apart. Qed.
Print Assumptions C93_buffer_apart.
(** a value that fits the buffer is aligned and inside the any, and is written over nothing else *)
Theorem C93_value_in_buffer : forall soos i al T addr, sensible i -> sensible al -> sensible T -> m_size T <= soos -> m_align T <= max_align ->
  exists l ob ov op od oa, any_layout soos i al = Some l /\ l_offs l = [ob; ov; op; od; oa] /\
    (aligned (l_align l) addr -> aligned (m_align T) (addr + od)) /\ within od (m_size T) (l_size l) /\
    apart od (m_size T) ov word /\ apart od (m_size T) op word /\ apart od (m_size T) oa (occupies al) /\ apart od (m_size T) ob (occupies i).
Proof. exact value_in_buffer. Qed.
Print Assumptions C93_value_in_buffer.
(** plugins and allocators without data cost nothing: two pointers, and the buffer rounded up *)
Theorem C93_size : forall soos name ts t i l, soos_ok soos = true -> NoDup ts -> t <> name -> t ∉ ts ->
  interface name (empty_plugin <$> ts) = Some i -> any_layout soos i (empty_alloc true t) = Some l ->
  l_offs l = [0; 0; 8; 16; 0] /\
  (soos = 0 -> l_size l = 24 /\ l_align l = 8) /\
  (soos <> 0 -> l_align l = 16 /\ Nat.divide 16 (l_size l) /\ 16 + soos <= l_size l < 32 + soos).
Proof. exact any_size. Qed.
Print Assumptions C93_size.
(** no useless memory: exactly when the size of the buffer is a multiple of 16 *)
Theorem C93_useless_memory_partial : forall soos name ts t i l, soos_ok soos = true -> NoDup ts -> t <> name -> t ∉ ts ->
  interface name (empty_plugin <$> ts) = Some i -> any_layout soos i (empty_alloc true t) = Some l ->
  (exists k, useless soos i (empty_alloc true t) l k) <-> ~ Nat.divide 16 soos.
Proof. exact any_useless. Qed.
Print Assumptions C93_useless_memory_partial.
(** which the default is not: any_with<Methods...> has 64 bytes, 8 of which nothing uses *)
Theorem C93_useless_memory_refuted : exists i l, interface 0 (empty_plugin <$> []) = Some i /\
  any_layout (soo_buffer_size default_any_soos) i (empty_alloc true 1) = Some l /\ l_size l = 64 /\
  forall k, 56 <= k < 64 -> useless (soo_buffer_size default_any_soos) i (empty_alloc true 1) l k.
Proof.
  eexists _, _. split; [vm_compute; reflexivity|]. split; [vm_compute; reflexivity|]. split; [done|]. intros k Hk. split; [cbn; lia|].
  intros ob ov op od oa [= <- <- <- <- <-]. change (Nat.max (soo_buffer_size default_any_soos) word) with 40. unfold word, occupies; cbn [m_empty m_shares empty_alloc andb]. lia.
Qed.
Print Assumptions C93_useless_memory_refuted.
(** references and pointers are two pointers; with one method its value takes the place of the table pointer; members never share data *)
Theorem C93_views : forall name ts i v, NoDup ts -> interface name (empty_plugin <$> ts) = Some i ->
  (exists l, ref_layout i None = Some l /\ l_offs l = [0; 0; 8] /\ l_size l = 16 /\ l_align l = 8) /\
  ((forall s a, v = Some (s, a) -> sensible (plain s a)) -> exists l, ref_layout i v = Some l /\ laid_out [i; view_base v; plain word word] l).
Proof. exact views. Qed.
Print Assumptions C93_views.
(** stateful references: a pointer and the table itself, n function pointers *)
Theorem C93_stateful : forall name ts i n, NoDup ts -> 0 < n -> interface name (empty_plugin <$> ts) = Some i ->
  exists l, stateful_layout i (Member (word * n) (word * n) word false [] true) = Some l /\ l_offs l = [0; 0; 8] /\ l_size l = 8 + 8 * n.
Proof. exact stateful_size. Qed.
Print Assumptions C93_stateful.

(** tests/test_anyany.cpp 1367-1368: basic_any_with<default_allocator, 0>; a plugin with data, an allocator with a pointer, a value of 24 bytes;
    where [[no_unique_address]] is ignored *)
Example C93_ex :
  (exists i l, interface 0 (empty_plugin <$> [5; 6]) = Some i /\ any_layout (soo_buffer_size 0) i (empty_alloc true 1) = Some l /\ l_size l = 2 * word + word) /\
  (let i := Member 24 17 8 false [] true in let al := Member 8 8 8 false [] true in
   sensible i /\ sensible al /\ sensible (plain 24 8) /\ option_map l_offs (any_layout 40 i al) = Some [0; 24; 32; 48; 96] /\
   option_map l_size (any_layout 40 i al) = Some 112) /\
  option_map l_size (any_layout 48 (Member 1 0 1 true [0] true) (empty_alloc false 1)) = Some 80.
Proof.
  split; [eexists _, _; split; [vm_compute; reflexivity|]; split; [vm_compute; reflexivity|done]|].
  split; [|done]. cbv zeta. split_and!; try done; unfold sensible; cbn.
  - split_and!; [by exists 3|by exists 3|lia|lia|done].
  - split_and!; [by exists 3|by exists 1|lia|lia|done].
  - split_and!; [by exists 3|by exists 3|lia|lia|done].
Qed.
Example C93_views_ex : exists i, interface 0 (empty_plugin <$> [5; 6]) = Some i /\ sensible (plain 1 1) /\
  option_map l_offs (ref_layout i (Some (1, 1))) = Some [0; 0; 8] /\ option_map l_size (stateful_layout i (Member 16 16 8 false [] true)) = Some 24.
Proof.
  eexists. split; [vm_compute; reflexivity|]. split_and!; try done. unfold sensible; cbn. split_and!; [by exists 0|by exists 1|lia|lia|done].
Qed.
(** the same empty type twice needs two addresses: an allocator that is also a plugin *)
Example C93_same_type : exists i, interface 0 (empty_plugin <$> [5]) = Some i /\
  option_map l_offs (any_layout 0 i (empty_alloc true 5)) = Some [0; 0; 8; 16; 24] /\ option_map l_size (any_layout 0 i (empty_alloc true 5)) = Some 32.
Proof. eexists. split; [vm_compute; reflexivity|done]. Qed.
