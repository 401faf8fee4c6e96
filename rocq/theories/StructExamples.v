(** Classes with any members: consequences in the form of the theorems, and concrete objects (C106). *)
From stdpp Require Import gmap list.
From Verif Require Import TypeListModel AnyModel AnyInv AnySteps AnyMove AnyAssign AnyHistory AnyExec AnyFacts AnyExamples VectorSpec VectorProofs VectorExamples StructModel StructSpec StructProofs.

Lemma copyable_movable E mss : all_copyable mss -> all_move_assignable E mss.
Proof. intros H. eapply Forall_impl; [done|]. intros ms Hm. apply has_move_assign_of. by eapply has_move_of_copy. Qed.
Lemma assignable_movable E mss : all_move_assignable E mss -> all_movable E mss.
Proof. intros H. eapply Forall_impl; [done|]. intros ms Hm. by apply has_move_assign_has. Qed.
Lemma gone_object mss w l news : gone w news -> object mss w l -> apart l news.
Proof. intros Hg Ho k Hk Hk'. apply (object_in mss w l k Ho Hk). by apply Hg. Qed.

Section Theorems.
  Context (E : env) (Hwf : env_wf E).
  Theorem copied mss w news olds : reachable E w -> all_copyable mss -> length news = length mss -> NoDup news -> gone w news -> object mss w olds ->
    match s_copy E mss news olds w with
    | Ok _ w' => reachable E w' /\ object mss w' news /\ elements w' news = elements w olds /\ others w w' news
    | Exn w' => reachable E w' /\ gone w' news /\ others w w' news
    | UB _ | Term => False
    end.
  Proof.
    intros Hr H1 H2 H3 H4 H5. pose proof (s_copy_spec E Hwf mss news olds w Hr H1 H2 H3 H4 H5) as H. destruct (s_copy E mss news olds w) as [[] w'|w'| |]; try done.
    - destruct H as (? & ? & ? & V). split; [done|]. split; [done|]. split; [done|]. by apply (others_view E Hwf).
    - destruct H as (? & ? & V). split; [done|]. split; [done|]. by apply (others_view E Hwf).
  Qed.
  Theorem moved mss w news olds : reachable E w -> all_movable E mss -> length news = length mss -> NoDup (news ++ olds) -> gone w news -> object mss w olds ->
    exists w', s_move E news olds w = Ok tt w' /\ reachable E w' /\ object mss w' news /\ object mss w' olds /\ elements w' news = elements w olds /\
      all_empty w' olds /\ others w w' (news ++ olds) /\ nothing_made w w' /\ same_blocks w w' olds news.
  Proof.
    intros Hr H1 H2 H3 H4 H5. destruct (s_move_spec E Hwf mss news olds w Hr H1 H2 H3 H4 H5) as (w' & ? & ? & ? & ? & ? & ? & V & ? & ?). exists w'.
    split; [done|]. split; [done|]. split; [done|]. split; [done|]. split; [done|]. split; [done|]. split; [by apply (others_view E Hwf)|]. done.
  Qed.
  Theorem destroyed mss w l : reachable E w -> NoDup l -> object mss w l ->
    exists w', s_dtor E l w = Ok tt w' /\ reachable E w' /\ gone w' l /\ others w w' l /\ nothing_made w w' /\ in_reverse E w w' l.
  Proof.
    intros Hr H1 H2. destruct (s_dtor_spec E Hwf mss l w Hr H1 H2) as (w' & ? & ? & ? & ? & V). exists w'.
    split; [done|]. split; [done|]. split; [done|]. split; [by apply (others_view E Hwf)|]. split; [done|]. intros n m i j x y ? ? ? ? ? ? ?.
    by apply (s_dtor_order E Hwf mss l w w' n m i j x y).
  Qed.
  Theorem copy_assigned mss w is js t : reachable E w -> movable_alloc E = true -> all_copyable mss -> NoDup is -> apart is js \/ is = js -> gone w [t] ->
    object mss w is -> object mss w js ->
    match s_copy_assign E is js t w with
    | Ok _ w' => reachable E w' /\ object mss w' is /\ elements w' is = elements w js /\ gone w' [t] /\ others w w' is
    | Exn w' => reachable E w' /\ object mss w' is /\ (exists n, n < length is /\ elements w' is = take n (elements w js) ++ drop n (elements w is)) /\ others w w' is
    | UB _ | Term => False
    end.
  Proof.
    intros Hr Hm Hc Hn Ha Ht Hi Hj. assert (aligned is js) as Hal. { destruct Ha as [Ha| ->]; [by apply aligned_apart|by apply aligned_self]. }
    pose proof (s_copy_assign_spec E Hwf mss t is js w Hr Hm Hc Hal (Ht t (or_introl eq_refl)) Hi Hj) as H. destruct (s_copy_assign E is js t w) as [[] w'|w'| |]; try done.
    - destruct H as (? & ? & ? & Ht' & V). split; [done|]. split; [done|]. split; [done|]. split; [by intros k [<-|[]]|]. by apply (others_view E Hwf).
    - destruct H as (? & ? & ? & V). split; [done|]. split; [done|]. split; [done|]. by apply (others_view E Hwf).
  Qed.
  Theorem copy_assigned_self mss w is t : reachable E w -> movable_alloc E = true -> all_copyable mss -> NoDup is -> gone w [t] -> object mss w is ->
    match s_copy_assign E is is t w with
    | Ok _ w' | Exn w' => reachable E w' /\ object mss w' is /\ elements w' is = elements w is /\ others w w' is
    | UB _ | Term => False
    end.
  Proof.
    intros Hr Hm Hc Hn Ht Hi. pose proof (copy_assigned mss w is is t Hr Hm Hc Hn (or_intror eq_refl) Ht Hi Hi) as H.
    destruct (s_copy_assign E is is t w) as [[] w'|w'| |]; try done.
    - by destruct H as (? & ? & ? & _ & ?).
    - destruct H as (? & ? & (n & _ & Hn') & ?). rewrite take_drop in Hn'. done.
  Qed.
  Theorem move_assigned mss w is js : reachable E w -> movable_alloc E = true -> all_move_assignable E mss -> NoDup (is ++ js) ->
    object mss w is -> object mss w js ->
    exists w', s_move_assign E is js w = Ok tt w' /\ reachable E w' /\ object mss w' is /\ object mss w' js /\ elements w' is = elements w js /\
      all_empty w' js /\ others w w' (is ++ js) /\ nothing_made w w' /\ same_blocks w w' js is.
  Proof.
    intros Hr H1 H2 H3 H4 H5. destruct (s_move_assign_spec E Hwf mss is js w Hr H1 H2 H3 H4 H5) as (w' & ? & ? & ? & ? & ? & ? & V & ? & ?). exists w'.
    split; [done|]. split; [done|]. split; [done|]. split; [done|]. split; [done|]. split; [done|]. split; [by apply (others_view E Hwf)|]. done.
  Qed.
  Theorem assigned_by_copy mss w is js ts : reachable E w -> movable_alloc E = true -> all_copyable mss -> length ts = length mss -> NoDup ts -> NoDup is ->
    gone w ts -> object mss w is -> object mss w js ->
    match s_assign_by_copy E mss is js ts w with
    | Ok _ w' => reachable E w' /\ object mss w' is /\ elements w' is = elements w js /\ gone w' ts /\ others w w' is
    | Exn w' => reachable E w' /\ object mss w' is /\ gone w' ts /\ others w w' []
    | UB _ | Term => False
    end.
  Proof.
    intros Hr Hm Hc Hl Ht Hi Hg Oi Oj. pose proof (gone_object mss w is ts Hg Oi) as Ai. pose proof (gone_object mss w js ts Hg Oj) as Aj.
    pose proof (s_copy_spec E Hwf mss ts js w Hr Hc Hl Ht Hg Oj) as H. unfold s_assign_by_copy, bindM at 1.
    destruct (s_copy E mss ts js w) as [[] w1|w1| |]; try done.
    - destruct H as (Hr1 & Ot & Hct & V1).
      assert (NoDup (is ++ ts)) as Hnd. { apply NoDup_app. split; [done|]. split; [|done]. intros k. rewrite !elem_of_list_In. apply Ai. }
      destruct (s_move_assign_spec E Hwf mss is ts w1 Hr1 Hm (copyable_movable E mss Hc) Hnd) as (w2 & H2 & Hr2 & Oi2 & Ot2 & Hc2 & _ & V2 & _ & _).
      { apply (object_view mss w); [|done]. intros k Hk. apply V1. by apply Ai. }
      { done. }
      destruct (s_dtor_spec E Hwf mss ts w2 Hr2 Ht Ot2) as (w3 & H3 & Hr3 & _ & Hg3 & V3).
      unfold bindM, on_exn. rewrite H2, H3. assert (forall k, In k is -> view w3 k = view w2 k) as Vi by (intros k Hk; by apply V3, Ai).
      split; [done|]. split; [by apply (object_view mss w2)|]. split; [rewrite (elements_view w2 w3 is Vi); congruence|]. split; [done|].
      apply (others_view E Hwf); [done|]. intros k Hk. destruct (in_dec Nat.eq_dec k ts) as [Hkt|Hkt].
      { unfold view. by rewrite (Hg3 k Hkt), (Hg k Hkt). }
      rewrite V3 by done. rewrite V2 by (rewrite in_app_iff; tauto). by apply V1.
    - destruct H as (Hr1 & Hg1 & V1). split; [done|]. assert (forall k, view w1 k = view w k) as V.
      { intros k. destruct (in_dec Nat.eq_dec k ts) as [Hkt|Hkt]; [|by apply V1]. unfold view. by rewrite (Hg1 k Hkt), (Hg k Hkt). }
      split; [by apply (object_view mss w)|]. split; [done|]. by apply (others_view E Hwf).
  Qed.
  Theorem swapped mss w is js ts : reachable E w -> movable_alloc E = true -> all_move_assignable E mss -> length ts = length mss -> NoDup ts -> NoDup (is ++ js) ->
    gone w ts -> object mss w is -> object mss w js ->
    exists w', s_swap E is js ts w = Ok tt w' /\ reachable E w' /\ object mss w' is /\ object mss w' js /\ elements w' is = elements w js /\
      elements w' js = elements w is /\ gone w' ts /\ others w w' (is ++ js) /\ nothing_made w w'.
  Proof.
    intros Hr Hm Hc Hl Ht Hij Hg Oi Oj. pose proof (gone_object mss w is ts Hg Oi) as Ai. pose proof (gone_object mss w js ts Hg Oj) as Aj.
    apply NoDup_app in Hij as Hij'. destruct Hij' as (Ni & Dij & Nj).
    assert (apart is js) as Aij. { intros k. rewrite <- !elem_of_list_In. apply Dij. }
    assert (forall l, NoDup l -> apart l ts -> NoDup (ts ++ l)) as Hnd.
    { intros l Hn Ha. apply NoDup_app. split; [done|]. split; [|done]. intros k. rewrite !elem_of_list_In. intros H1 H2. by apply (Ha k). }
    destruct (s_move_spec E Hwf mss ts is w Hr (assignable_movable E mss Hc) Hl (Hnd is Ni Ai) Hg Oi) as (w1 & H1 & Hr1 & Ot1 & Oi1 & C1 & _ & V1 & Q1 & _).
    assert (Vj1 : forall k, In k js -> view w1 k = view w k).
    { intros k Hk. apply V1. rewrite in_app_iff. intros [Hx|Hx]; [by apply (Aj k)|by apply (Aij k)]. }
    destruct (s_move_assign_spec E Hwf mss is js w1 Hr1 Hm Hc Hij Oi1 (object_view mss w w1 js Vj1 Oj)) as (w2 & H2 & Hr2 & Oi2 & Oj2 & C2 & _ & V2 & Q2 & _).
    assert (Vt2 : forall k, In k ts -> view w2 k = view w1 k).
    { intros k Hk. apply V2. rewrite in_app_iff. intros [Hx|Hx]; [by apply (Ai k)|by apply (Aj k)]. }
    assert (NoDup (js ++ ts)) as Njt. { apply NoDup_app. split; [done|]. split; [|done]. intros k. rewrite !elem_of_list_In. apply Aj. }
    destruct (s_move_assign_spec E Hwf mss js ts w2 Hr2 Hm Hc Njt Oj2 (object_view mss w1 w2 ts Vt2 Ot1)) as (w3 & H3 & Hr3 & Oj3 & Ot3 & C3 & _ & V3 & Q3 & _).
    assert (Vi3 : forall k, In k is -> view w3 k = view w2 k).
    { intros k Hk. apply V3. rewrite in_app_iff. intros [Hx|Hx]; [by apply (Aij k)|by apply (Ai k)]. }
    destruct (s_dtor_spec E Hwf mss ts w3 Hr3 Ht Ot3) as (w4 & H4 & Hr4 & Q4 & Hg4 & V4).
    assert (Vi4 : forall k, In k is -> view w4 k = view w3 k) by (intros k Hk; by apply V4, Ai).
    assert (Vj4 : forall k, In k js -> view w4 k = view w3 k) by (intros k Hk; by apply V4, Aj).
    exists w4. split; [unfold s_swap, bindM, on_exn; by rewrite H1, H2, H3, H4|]. split; [done|].
    split; [apply (object_view mss w3); [done|]; by apply (object_view mss w2)|]. split; [by apply (object_view mss w3)|].
    split. { rewrite (elements_view w3 w4 is Vi4), (elements_view w2 w3 is Vi3), C2. by apply elements_view. }
    split. { rewrite (elements_view w3 w4 js Vj4), C3, (elements_view w1 w2 ts Vt2). done. }
    split; [done|]. split.
    { apply (others_view E Hwf); [done|]. intros k Hk. rewrite in_app_iff in Hk. destruct (in_dec Nat.eq_dec k ts) as [Hkt|Hkt].
      { unfold view. by rewrite (Hg4 k Hkt), (Hg k Hkt). }
      rewrite V4 by done. rewrite V3 by (rewrite in_app_iff; tauto). rewrite V2 by (rewrite in_app_iff; tauto). apply V1. rewrite in_app_iff. tauto. }
    eapply quiet_trans; [done|]. eapply quiet_trans; [done|]. by eapply quiet_trans.
  Qed.
End Theorems.

Definition objectb (mss : list (list method)) (w : world) (l : list nat) : bool :=
  (length mss =? length l) && forallb (fun p => match w_any w !! p.2 with Some a => bool_decide (a_ms a = p.1) | None => false end) (zip mss l).
Lemma objectb_sound mss w l : objectb mss w l = true -> object mss w l.
Proof.
  unfold objectb, object. intros [H1 H]%andb_prop. apply Nat.eqb_eq in H1. revert l H1 H. induction mss as [|ms mss IH]; intros [|i l] H1 H; try done.
  cbn [zip zip_with forallb fst snd] in H. apply andb_prop in H as [Hi H]. constructor.
  - destruct (w_any w !! i) as [a|] eqn:Ha; [|discriminate Hi]. exists a. split; [done|]. by apply bool_decide_eq_true in Hi.
  - apply IH; [by injection H1|done].
Qed.

(** class { any_with<...> (with user methods) x; any_with<copy, move> y; }; two objects, 0 1 and 2 3: a string-like and a small value each *)
Definition two_members : list (list method) := [full; part].
Definition two_objects (al : nat) : list op :=
  [OValue 0 al full 1 (AVal 10) false; OValue 1 al part 2 (AVal 20) true; OValue 2 al full 1 (AVal 30) false; OValue 3 al part 2 (AVal 40) true].
Lemma two_copyable : all_copyable two_members.
Proof. repeat constructor; cbn; tauto. Qed.
Lemma nodup_dec (l : list nat) : bool_decide (NoDup l) = true -> NoDup l.
Proof. apply bool_decide_eq_true. Qed.

(** the first member is assigned, copying the second throws: the target has one value of each object *)
Theorem assigned_in_part : exists E mss w is js t w', env_wf E /\ reachable E w /\ movable_alloc E = true /\ all_copyable mss /\ NoDup is /\ apart is js /\
  gone w [t] /\ object mss w is /\ object mss w js /\ s_copy_assign E is js t w = Exn w' /\
  elements w is = [Some (Some (1, 10)); Some (Some (2, 20))] /\ elements w js = [Some (Some (1, 30)); Some (Some (2, 40))] /\
  elements w' is = [Some (Some (1, 30)); Some (Some (2, 20))].
Proof.
  set (E := mkE 16 true false false [6]). exists E, two_members, (after E (two_objects 0)), [0; 1], [2; 3], 4, (okw (s_copy_assign E [0; 1] [2; 3] 4 (after E (two_objects 0)))).
  split; [apply mkE_wf|]. split; [apply after_reachable; by vm_compute|]. split; [done|]. split; [apply two_copyable|].
  split; [apply nodup_dec; by vm_compute|]. split; [intros k [<-|[<-|[]]] [?|[?|[]]]; lia|]. split; [apply goneb_sound; by vm_compute|].
  split; [apply objectb_sound; by vm_compute|]. split; [apply objectb_sound; by vm_compute|]. split; [apply exn_okw; by vm_compute|].
  split; [by vm_compute|]. split; by vm_compute.
Qed.
(** an allocator like std::pmr::polymorphic_allocator: the copies are made, moving the first one into the target allocates again and throws *)
Definition small_and_big : list op :=
  [OValue 0 3 full 5 (AVal 10) false; OValue 1 3 part 5 (AVal 20) false; OValue 2 3 full 1 (AVal 30) false; OValue 3 3 part 2 (AVal 40) true].
Theorem assigned_by_copy_lost : exists E mss w is js ts w', env_wf E /\ reachable E w /\ all_copyable mss /\ NoDup (is ++ js ++ ts) /\ length ts = length mss /\
  gone w ts /\ object mss w is /\ object mss w js /\ s_assign_by_copy E mss is js ts w = Exn w' /\
  elements w is = [Some (Some (5, 10)); Some (Some (5, 20))] /\ elements w' is = [Some None; Some (Some (5, 20))].
Proof.
  set (E := pmr [7]). exists E, two_members, (after E small_and_big), [0; 1], [2; 3], [4; 5], (okw (s_assign_by_copy E two_members [0; 1] [2; 3] [4; 5] (after E small_and_big))).
  split; [apply pmr_wf|]. split; [apply after_reachable; by vm_compute|]. split; [apply two_copyable|].
  split; [apply nodup_dec; by vm_compute|]. split; [done|]. split; [apply goneb_sound; by vm_compute|].
  split; [apply objectb_sound; by vm_compute|]. split; [apply objectb_sound; by vm_compute|]. split; [apply exn_okw; by vm_compute|].
  split; by vm_compute.
Qed.
