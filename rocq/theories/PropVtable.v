(** Properties C30, C33: vtable layout, vtable::change. *)
From Coq Require Import List Arith Lia.
From Verif Require Import TypeListModel TypeListSpec TypeListProofs VtableModel VtableProofs.
Import ListNotations.

(** ** C30 *)
(** Full statement: for every list of entries.  It needs the start of the view to be aligned for all entries
    of the view: *)
Theorem C30_view_reads_right_entry_partial :
  forall A (eqb : A -> A -> bool), decides eqb -> forall (lay : A -> nat * nat) B to from n d m,
  find_subsequence eqb to from = CtOk (Some n) ->
  nth_error (layout lay 0 from) n = Some d ->
  (forall x, In x from -> 0 < snd (lay x)) -> (forall x, In x to -> Nat.divide (snd (lay x)) d) ->
  In m to ->
  exists S k addr, subtable_addr eqb lay B to from = Some S /\
    nth_error to k = Some m /\ (forall j, j < k -> nth_error to j <> Some m) /\
    slot_addr eqb lay S to m = Some addr /\
    nth_error (entries lay B from) (n + k) = Some (addr, m).
Proof. exact subtable_reads. Qed.
Print Assumptions C30_view_reads_right_entry_partial.
(** which holds when all entries have the same alignment (function pointers, descriptors, structs of them) *)
Theorem C30_uniform_alignment_partial :
  forall A (eqb : A -> A -> bool), decides eqb -> forall (lay : A -> nat * nat) B to from n m a,
  0 < a -> (forall x, In x from -> snd (lay x) = a) ->
  find_subsequence eqb to from = CtOk (Some n) -> In m to ->
  exists S k addr, subtable_addr eqb lay B to from = Some S /\
    nth_error to k = Some m /\ (forall j, j < k -> nth_error to j <> Some m) /\
    slot_addr eqb lay S to m = Some addr /\
    nth_error (entries lay B from) (n + k) = Some (addr, m).
Proof. exact uniform_reads. Qed.
Print Assumptions C30_uniform_alignment_partial.
(** the library's own methods other than visitor_interface_tag *)
Theorem C30_library_methods_partial :
  forall B to from n m, ~ In LVisitorTag from ->
  find_subsequence libeqb to from = CtOk (Some n) -> In m to ->
  exists S k addr, subtable_addr libeqb liblay B to from = Some S /\
    nth_error to k = Some m /\ (forall j, j < k -> nth_error to j <> Some m) /\
    slot_addr libeqb liblay S to m = Some addr /\
    nth_error (entries liblay B from) (n + k) = Some (addr, m).
Proof. exact library_reads. Qed.
Print Assumptions C30_library_methods_partial.
(** visitor_interface<A>, visitor_interface<> then a method: converting to the last two reads past the table *)
Theorem C30_mixed_sizes_refuted :
  exists to from n m S addr, find_subsequence libeqb to from = CtOk (Some n) /\ In m to /\
    subtable_addr libeqb liblay 64 to from = Some S /\ slot_addr libeqb liblay S to m = Some addr /\
    ~ In (addr, m) (entries liblay 64 from).
Proof. exact library_misreads. Qed.
Print Assumptions C30_mixed_sizes_refuted.

Example C30_ex : let from := [LFun 0; LEqual; LFun 1; LTypeInfo; LFun 2] in let to := [LFun 1; LTypeInfo] in
  find_subsequence libeqb to from = CtOk (Some 2) /\ ~ In LVisitorTag from /\ In LTypeInfo to /\
  subtable_addr libeqb liblay 64 to from = Some 88 /\ slot_addr libeqb liblay 88 to LTypeInfo = Some 96 /\
  nth_error (layout liblay 0 from) 2 = Some 24.
Proof. cbv zeta. split; [reflexivity|]. split; [cbn; intuition discriminate|]. split; [right; now left|]. now vm_compute. Qed.
(** a view after an empty entry that starts aligned *)
Example C30_ex_tag : let from := [LFun 0; LVisitorTag; LFun 1; LFun 2] in let to := [LVisitorTag; LFun 1] in
  find_subsequence libeqb to from = CtOk (Some 1) /\ nth_error (layout liblay 0 from) 1 = Some 8 /\
  (forall x, In x to -> Nat.divide (snd (liblay x)) 8).
Proof.
  cbv zeta. split; [reflexivity|]. split; [reflexivity|]. intros x [<-|[<-|[]]]; [exists 8|exists 1]; reflexivity.
Qed.

(** ** C33 *)
(** every entry of the method is replaced, no other; the table keeps its length *)
Theorem C33_change_all_and_only :
  forall A V (eqb : A -> A -> bool), decides eqb -> forall m (v : V) ms tab, length tab = length ms ->
  length (change eqb m v ms tab) = length ms /\
  forall k x t, nth_error ms k = Some x -> nth_error tab k = Some t ->
    (x = m -> nth_error (change eqb m v ms tab) k = Some v) /\
    (x <> m -> nth_error (change eqb m v ms tab) k = Some t).
Proof. exact change_nth. Qed.
Print Assumptions C33_change_all_and_only.
(** as seen through invoke *)
Theorem C33_invoke_after_change :
  forall A V (eqb : A -> A -> bool), decides eqb -> forall m (v : V) ms tab, length tab = length ms ->
  (In m ms -> vt_get eqb m ms (change eqb m v ms tab) = Some v) /\
  (forall m', m' <> m -> vt_get eqb m' ms (change eqb m v ms tab) = vt_get eqb m' ms tab).
Proof. exact change_get. Qed.
Print Assumptions C33_invoke_after_change.

Example C33_ex : change Nat.eqb 2 9 [1; 2; 3; 2] [10; 20; 30; 21] = [10; 9; 30; 9] /\
  vt_get Nat.eqb 2 [1; 2; 3; 2] (change Nat.eqb 2 9 [1; 2; 3; 2] [10; 20; 30; 21]) = Some 9 /\
  vt_get Nat.eqb 3 [1; 2; 3; 2] (change Nat.eqb 2 9 [1; 2; 3; 2] [10; 20; 30; 21]) = Some 30.
Proof. repeat split. Qed.
