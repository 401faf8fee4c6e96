(** Vectors of anys: consequences in the form of the theorems, and an allocator like std::pmr::polymorphic_allocator (C99). *)
From stdpp Require Import gmap list.
From Verif Require Import TypeListModel TypeListSpec TypeListProofs AnyModel AnyInv AnySteps AnyHistory AnyLogSpec AnyExec AnyFacts AnyExamples NoexceptModel NoexceptSpec NoexceptProofs VectorModel VectorSpec VectorProofs.

Lemma by_move_when E ms : movable_alloc E = true \/ ~ In (MCopy true) ms -> by_move E ms = true.
Proof.
  unfold by_move, copyable. cbn [declared]. intros [->|H]; [done|]. apply (contains_v_false meqb meqb_ok) in H. rewrite H. by rewrite andb_false_r.
Qed.

Theorem growth_keeps E ms w olds news : env_wf E -> ready E ms w olds news -> has_move E ms = true ->
  match grow E ms olds news w with
  | Ok _ w' => reachable E w' /\ alive ms w' news /\ gone w' olds /\ elements w' news = elements w olds /\ others w w' (news ++ olds)
  | Exn w' => reachable E w' /\ gone w' news /\ others w w' news
  | UB _ | Term => False
  end.
Proof.
  intros Hwf (Hr & Hl & Hn & Hg & Ha) Hm. pose proof (grow_spec E ms Hwf w olds news Hr Hm Hl Hn Hg Ha) as H.
  destruct (grow E ms olds news w) as [[] w'|w'| |]; try done; [|by destruct H].
  destruct H as (? & ? & ? & ? & ? & _). done.
Qed.
Theorem growth_moves E ms w olds news : env_wf E -> ready E ms w olds news -> has_move E ms = true -> movable_alloc E = true \/ ~ In (MCopy true) ms ->
  exists w', grow E ms olds news w = Ok tt w' /\ nothing_made w w' /\ same_blocks w w' olds news /\ allocators w' news = allocators w olds.
Proof.
  intros Hwf (Hr & Hl & Hn & Hg & Ha) Hm Hb%by_move_when. pose proof (grow_spec E ms Hwf w olds news Hr Hm Hl Hn Hg Ha) as H.
  destruct (grow E ms olds news w) as [[] w'|w'| |]; try done; [|destruct H; congruence].
  destruct H as (_ & _ & _ & _ & _ & H). exists w'. split; [done|]. by apply H.
Qed.
Theorem pushed_back E ms w olds news x src : env_wf E -> ready E ms w olds news -> In (MCopy true) ms ->
  ~ In x (news ++ olds) -> gone w [x] -> alive ms w [src] ->
  match push_back E ms olds news x src w with
  | Ok _ w' => reachable E w' /\ alive ms w' (news ++ [x]) /\ gone w' olds /\ elements w' (news ++ [x]) = elements w (olds ++ [src]) /\
      others w w' (x :: news ++ olds)
  | Exn w' => reachable E w' /\ gone w' (x :: news) /\ others w w' (x :: news)
  | UB _ | Term => False
  end.
Proof.
  intros Hwf (Hr & Hl & Hn & Hg & Ha) Hc Hx Hgx Hs. apply push_back_spec; try done.
  - apply NoDup_cons. by rewrite elem_of_list_In.
  - intros k [<-|Hk]; [by apply Hgx; left|by apply Hg].
  - intros k [<-|Hk]; [by apply Hs; left|by apply Ha].
Qed.
Theorem pushed_back_rvalue E ms w olds news x src : env_wf E -> ready E ms w olds news -> has_move E ms = true ->
  ~ In x (news ++ olds) -> gone w [x] -> alive ms w [src] -> movable_alloc E = true \/ ~ In (MCopy true) ms ->
  exists w', push_back_move E ms olds news x src w = Ok tt w' /\ reachable E w' /\ alive ms w' (news ++ [x]) /\ gone w' olds /\
    elements w' (news ++ [x]) = map (fun k => if k =? src then Some None else content w k) olds ++ [content w src] /\
    (~ In src olds -> is_empty w' src) /\ others w w' (x :: src :: news ++ olds) /\ nothing_made w w' /\
    (~ In src olds -> same_blocks w w' (olds ++ [src]) (news ++ [x])) /\ allocators w' (news ++ [x]) = allocators w (olds ++ [src]).
Proof.
  intros Hwf (Hr & Hl & Hn & Hg & Ha) Hm Hx Hgx Hs Hb%by_move_when. apply push_back_move_spec; try done.
  - apply NoDup_cons. by rewrite elem_of_list_In.
  - intros k [<-|Hk]; [by apply Hgx; left|by apply Hg].
  - intros k [<-|Hk]; [by apply Hs; left|by apply Ha].
  - destruct (Hs src (or_introl eq_refl)) as (a & H & _). intros [<-|Hin]; [|rewrite (Hg _ Hin) in H; done].
    rewrite (Hgx x (or_introl eq_refl)) in H. done.
Qed.
Theorem erased E ms w i rest : env_wf E -> reachable E w -> movable_alloc E = true -> has_move_assign E ms = true ->
  NoDup (i :: rest) -> alive ms w (i :: rest) ->
  exists w', erase E i rest w = Ok tt w' /\ reachable E w' /\ alive ms w' (removelast (i :: rest)) /\ gone w' [List.last (i :: rest) i] /\
    elements w' (removelast (i :: rest)) = elements w rest /\ others w w' (i :: rest) /\ nothing_made w w' /\
    same_blocks w w' rest (removelast (i :: rest)).
Proof.
  intros Hwf Hr Hma Hm Hn Ha. destruct (erase_spec E ms Hwf rest w i Hr Hma Hm Hn Ha) as (w' & ? & ? & ? & ? & ? & V & Q & ?).
  exists w'. split; [done|]. split; [done|]. split; [done|]. split; [done|]. split; [done|]. split; [by apply (others_view E Hwf)|]. done.
Qed.

(** allocators differ, do not propagate, and copies of containers use the default one: std::pmr::polymorphic_allocator *)
Definition pmr (throws : list nat) : env :=
  Env ty_ex 16 false false false (fun _ => 0) true 0 meth_ex (fun k => bool_decide (k ∈ throws)).
Lemma pmr_wf throws : env_wf (pmr throws).
Proof.
  split.
  - intros T. cbn. do 6 (destruct T as [|T]; [cbn; lia|]). cbn. lia.
  - intros T. cbn. do 6 (destruct T as [|T]; [done|]). done.
  - done.
Qed.
(** a string-like value and a small one, with allocator 3 *)
Definition two_anys : list op := [OValue 0 3 full 1 (AVal 10) false; OValue 1 3 full 5 (AVal 20) true].
Definition aliveb (ms : list method) (w : world) (l : list nat) : bool :=
  forallb (fun i => match w_any w !! i with Some a => bool_decide (a_ms a = ms) | None => false end) l.
Lemma aliveb_sound ms w l : aliveb ms w l = true -> alive ms w l.
Proof.
  unfold aliveb. rewrite forallb_forall. intros H i Hi. specialize (H i Hi). destruct (w_any w !! i) as [a|] eqn:Ha; [|done].
  exists a. split; [done|]. by apply bool_decide_eq_true in H.
Qed.
Definition goneb (w : world) (l : list nat) : bool := forallb (fun i => match w_any w !! i with Some _ => false | None => true end) l.
Lemma goneb_sound w l : goneb w l = true -> gone w l.
Proof. unfold goneb. rewrite forallb_forall. intros H i Hi. specialize (H i Hi). by destruct (w_any w !! i). Qed.
Definition readyb (E : env) (ms : list method) (l : list op) (olds news : list nat) : bool :=
  (allowedb E l init_world && match exec E l init_world with Ok _ _ => true | _ => false end) &&
  ((length news =? length olds) && bool_decide (NoDup (news ++ olds)) && goneb (after E l) news && aliveb ms (after E l) olds).
Lemma readyb_sound E ms l olds news : readyb E ms l olds news = true -> ready E ms (after E l) olds news.
Proof.
  intros H. apply andb_prop in H as [H1 H]. apply andb_prop in H as [H H5]. apply andb_prop in H as [H H4]. apply andb_prop in H as [H2 H3].
  split; [by apply after_reachable|]. split; [by apply Nat.eqb_eq|]. split; [by apply bool_decide_eq_true in H3|]. split; [by apply goneb_sound|by apply aliveb_sound].
Qed.

(** moving cannot throw, still the elements are copied *)
Theorem growth_copies : exists E ms w olds news w', env_wf E /\ ready E ms w olds news /\ has_move E ms = true /\ ~ can_throw E is_move_ctor /\
  grow E ms olds news w = Ok tt w' /\ ~ same_blocks w w' olds news /\ ~ nothing_made w w' /\ allocators w' news <> allocators w olds.
Proof.
  exists (pmr []), full, (after (pmr []) two_anys), [0; 1], [2; 3], (okw (grow (pmr []) full [0; 1] [2; 3] (after (pmr []) two_anys))).
  split; [apply pmr_wf|]. split; [apply readyb_sound; by vm_compute|]. split; [by vm_compute|]. split; [apply move_cannot_throw|].
  split; [apply ok_okw; by vm_compute|]. split.
  { intros H. specialize (H 0 0 2). vm_compute in H. specialize (H _ eq_refl eq_refl eq_refl). discriminate H. }
  split; [intros [_ H]; vm_compute in H; discriminate H|]. intros H. vm_compute in H. discriminate H.
Qed.
Theorem growth_throws : exists E ms w olds news w', env_wf E /\ ready E ms w olds news /\ has_move E ms = true /\ ~ can_throw E is_move_ctor /\
  grow E ms olds news w = Exn w'.
Proof.
  exists (pmr [2]), full, (after (pmr [2]) two_anys), [0; 1], [2; 3], (okw (grow (pmr [2]) full [0; 1] [2; 3] (after (pmr [2]) two_anys))).
  split; [apply pmr_wf|]. split; [apply readyb_sound; by vm_compute|]. split; [by vm_compute|]. split; [apply move_cannot_throw|].
  apply exn_okw. by vm_compute.
Qed.
(** push_back(std::move(a)) throws and the value of a is lost *)
Theorem push_back_loses : exists E ms w olds news x src w' v, env_wf E /\ ready E ms w olds news /\ has_move E ms = true /\ ~ can_throw E is_move_ctor /\
  ~ In x (news ++ olds) /\ gone w [x] /\ alive ms w [src] /\ ~ In src (news ++ olds) /\
  push_back_move E ms olds news x src w = Exn w' /\ content w src = Some (Some v) /\ is_empty w' src /\ gone w' [x].
Proof.
  exists (pmr [2]), full, (after (pmr [2]) two_anys), [0], [2], 3, 1, (okw (push_back_move (pmr [2]) full [0] [2] 3 1 (after (pmr [2]) two_anys))), (5, 20).
  split; [apply pmr_wf|]. split; [apply readyb_sound; by vm_compute|]. split; [by vm_compute|]. split; [apply move_cannot_throw|].
  split; [by intros [?|[?|[]]]|]. split; [apply goneb_sound; by vm_compute|]. split; [apply aliveb_sound; by vm_compute|].
  split; [by intros [?|[?|[]]]|]. split; [apply exn_okw; by vm_compute|]. split; [by vm_compute|]. split; [by vm_compute|]. apply goneb_sound; by vm_compute.
Qed.
