(** What a well-behaved log of allocation and construction events is.  Nothing here mentions the model
    of basic_any, only the event type. *)
From stdpp Require Import gmap list.
From Verif Require Import AnyModel.

(** [blocks eq log m]: every deallocation in [log] (newest first) returned a block that was outstanding,
    with the size it was requested with and to an allocator equal to the one it came from; no block
    name is handed out twice; [m] are the blocks outstanding at the end, with allocator and size. *)
Inductive blocks (eq : nat -> nat -> Prop) : list event -> gmap nat (nat * nat) -> Prop :=
| blocks_nil : blocks eq [] ∅
| blocks_alloc l m b al n : blocks eq l m -> (forall al' n', ~ In (EvAlloc b al' n') l) ->
    blocks eq (EvAlloc b al n :: l) (<[b := (al, n)]> m)
| blocks_free l m b al al' n : blocks eq l m -> m !! b = Some (al', n) -> eq al al' ->
    blocks eq (EvFree b al n :: l) (delete b m)
| blocks_ctor l m id T : blocks eq l m -> blocks eq (EvCtor id T :: l) m
| blocks_dtor l m id T : blocks eq l m -> blocks eq (EvDtor id T :: l) m.

(** [objects log m]: every destructor run in [log] was for an object alive at that moment and of that type;
    no object is constructed twice; [m] are the objects (with non-trivial destructor) alive at the end. *)
Inductive objects : list event -> gmap nat nat -> Prop :=
| objects_nil : objects [] ∅
| objects_ctor l m id T : objects l m -> (forall T', ~ In (EvCtor id T') l) ->
    objects (EvCtor id T :: l) (<[id := T]> m)
| objects_dtor l m id T : objects l m -> m !! id = Some T -> objects (EvDtor id T :: l) (delete id m)
| objects_alloc l m b al n : objects l m -> objects (EvAlloc b al n :: l) m
| objects_free l m b al n : objects l m -> objects (EvFree b al n :: l) m.

Definition count (P : event -> bool) (l : list event) : nat := length (List.filter P l).
Definition is_free (e : event) : bool := match e with EvFree _ _ _ => true | _ => false end.
Definition is_malloc (e : event) : bool := match e with EvAlloc _ _ _ => true | _ => false end.
Definition is_ctor (e : event) : bool := match e with EvCtor _ _ => true | _ => false end.
Definition is_dtor (e : event) : bool := match e with EvDtor _ _ => true | _ => false end.

Lemma blocks_count eq l m : blocks eq l m -> count is_malloc l = count is_free l + size m.
Proof.
  induction 1 as [|l m b al n Hb IH Hnew|l m b al al' n Hb IH Hm|l m id T Hb IH|l m id T Hb IH]; unfold count in *; cbn; try lia.
  - by rewrite map_size_empty.
  - assert (m !! b = None) as Hn.
    { clear IH. destruct (m !! b) as [[al' n']|] eqn:Hm; [|done]. exfalso. clear al n. revert b al' n' Hnew Hm.
      induction Hb as [|l m b0 al0 n0 Hb IH Hnew0|l m b0 al0 al1 n0 Hb IH Hm0|l m id T Hb IH|l m id T Hb IH]; intros b al' n' Hnew Hm.
      - done.
      - destruct (decide (b = b0)) as [->|]; [by eapply Hnew; left|]. rewrite lookup_insert_ne in Hm by done.
        eapply IH; [|done]. intros ? ? ?. eapply Hnew. by right.
      - apply lookup_delete_Some in Hm as [_ Hm]. eapply IH; [|done]. intros ? ? ?. eapply Hnew. by right.
      - eapply IH; [|done]. intros ? ? ?. eapply Hnew. by right.
      - eapply IH; [|done]. intros ? ? ?. eapply Hnew. by right. }
    rewrite map_size_insert_None by done. lia.
  - rewrite map_size_delete_Some by by eexists. assert (size m <> 0).
    { intros Hz. apply map_size_empty_inv in Hz. by subst. }
    lia.
Qed.

Lemma objects_count l m : objects l m -> count is_ctor l = count is_dtor l + size m.
Proof.
  induction 1 as [|l m b al Hb IH Hnew|l m b al Hb IH Hm|l m id T n Hb IH|l m id T n Hb IH]; unfold count in *; cbn; try lia.
  - by rewrite map_size_empty.
  - assert (m !! b = None) as Hn.
    { clear IH. destruct (m !! b) as [al'|] eqn:Hm; [|done]. exfalso. clear al. revert b al' Hnew Hm.
      induction Hb as [|l m b0 al0 Hb IH Hnew0|l m b0 al0 Hb IH Hm0|l m id T n Hb IH|l m id T n Hb IH]; intros b al' Hnew Hm.
      - done.
      - destruct (decide (b = b0)) as [->|]; [by eapply Hnew; left|]. rewrite lookup_insert_ne in Hm by done.
        eapply IH; [|done]. intros ? ?. eapply Hnew. by right.
      - apply lookup_delete_Some in Hm as [_ Hm]. eapply IH; [|done]. intros ? ?. eapply Hnew. by right.
      - eapply IH; [|done]. intros ? ?. eapply Hnew. by right.
      - eapply IH; [|done]. intros ? ?. eapply Hnew. by right. }
    rewrite map_size_insert_None by done. lia.
  - rewrite map_size_delete_Some by by eexists. assert (size m <> 0).
    { intros Hz. apply map_size_empty_inv in Hz. by subst. }
    lia.
Qed.
