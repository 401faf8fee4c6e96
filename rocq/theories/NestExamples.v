(** Definitions for the examples beside C96. *)
From stdpp Require Import gmap list.
From Verif Require Import NestModel NestSpec NestSteps.

(** is the operation legal *)
Definition clear_of (p q : list nat) : bool := negb (bool_decide (prefix p q)).
Definition legalb (f : list (option tree)) (o : op) : bool :=
  match tstep false o f with None => false | _ => true end &&
  match o with
  | OMoveAssign p q => bool_decide (p = q) || (clear_of p q && clear_of q p)
  | OEmplace p _ _ qs => forallb (clear_of p) qs
  | _ => true
  end.
Lemma clear_of_sound p q : clear_of p q = true -> ~ above p q.
Proof. unfold clear_of. case_bool_decide as H; [done|]. intros _ Ha. by apply H. Qed.
Lemma legalb_sound f o : legalb f o = true -> legal f o.
Proof.
  unfold legalb, legal. intros [H1 H2]%andb_prop. split; [by destruct (tstep false o f)|]. destruct o; try done.
  - apply orb_prop in H2 as [H2|[H2 H3]%andb_prop]; [left; by apply bool_decide_eq_true in H2|right]. split; by apply clear_of_sound.
  - apply Forall_forall. intros q Hq. apply forallb_forall with (x := q) in H2; [by apply clear_of_sound|by apply elem_of_list_In].
Qed.
(** a program, while its operations are legal: the world and the trees; an exception is caught after the operation *)
Fixpoint play (E : env) (n : nat) (os : list op) (w : world) (f : list (option tree)) : option (world * list (option tree)) :=
  match os with
  | [] => Some (w, f)
  | o :: os =>
      if legalb f o then
        match run E n o w with
        | Ok _ w' => match tstep false o f with Some f' => play E n os w' f' | None => None end
        | Exn w' => match tstep true o f with Some f' => play E n os w' f' | None => None end
        | _ => None
        end
      else None
  end.
Lemma play_history E n os w f w' f' : history E w f -> play E n os w f = Some (w', f') -> history E w' f'.
Proof.
  revert w f. induction os as [|o os IH]; intros w f H; cbn [play]; [by intros [= <- <-]|]. destruct (legalb f o) eqn:Hl; [|done].
  apply legalb_sound in Hl. destruct (run E n o w) as [[] w1|w1| |] eqn:Hr; try done.
  - destruct (tstep false o f) as [g|] eqn:Ht; [|done]. apply IH. by eapply h_ok.
  - destruct (tstep true o f) as [g|] eqn:Ht; [|done]. apply IH. by eapply h_exn.
Qed.

(** types 0 and 1 fit in the buffer, type 2 does not, type 3 needs more than type 2; nothing throws, or action [k] does *)
Definition calm : env := Env (fun T => 8 * T) 8 (fun _ => false).
Definition fails_at (k : nat) : env := Env (fun T => 8 * T) 8 (fun i => i =? k).
(** leaf; a value on the heap with a copy of it inside; a value in the buffer with the former twice inside *)
Definition three : list op := [OValue 2 5 []; OValue 2 6 [[0]]; OValue 1 7 [[1]; [1]]].
Definition three_trees : list (option tree) :=
  [Some (Node 2 5 []); Some (Node 2 6 [Some (Node 2 5 [])]);
   Some (Node 1 7 [Some (Node 2 6 [Some (Node 2 5 [])]); Some (Node 2 6 [Some (Node 2 5 [])])])].
Definition world_of (r : option (world * list (option tree))) : world := match r with Some (w, _) => w | None => init end.
Definition trees_of (r : option (world * list (option tree))) : list (option tree) := match r with Some (_, f) => f | None => [] end.
Definition played (E : env) (os : list op) := play E 9 os init [].
Definition result {A} (r : res A) : option bool := match r with Ok _ _ => Some false | Exn _ => Some true | _ => None end.
Definition after {A} (r : res A) : world := match r with Ok _ w | Exn w => w | _ => init end.
Lemma played_as E os f : option_map snd (played E os) = Some f -> history E (world_of (played E os)) f.
Proof. unfold played. destruct (play E 9 os init []) as [[w g]|] eqn:Hp; [|done]. intros [= <-]. eapply play_history; [constructor|done]. Qed.

(** x = T2(6, {T2(5)}), alone *)
Definition parent : list op := [OValue 2 5 []; OValue 2 6 [[0]]; OMoveAssign [0] [1]; OEnd].
Definition parent_world : world := world_of (played calm parent).
Lemma parent_history : history calm parent_world [Some (Node 2 6 [Some (Node 2 5 [])])].
Proof. unfold parent_world. apply played_as. vm_compute. reflexivity. Qed.
Lemma moving_out_is_ub :
  exists E w f p q, history E w f /\ tstep false (OMoveAssign p q) f <> None /\ exists N, forall n, N <= n -> exists r, run E n (OMoveAssign p q) w = UB r.
Proof.
  exists calm, parent_world, [Some (Node 2 6 [Some (Node 2 5 [])])], [0], [0; 0]. split; [apply parent_history|]. split; [done|]. exists 9. intros n Hn.
  exists UbNoValue. assert (run calm 9 (OMoveAssign [0] [0; 0]) parent_world = UB UbNoValue) as H by (vm_compute; reflexivity).
  destruct (more_run calm 9 n (OMoveAssign [0] [0; 0]) Hn parent_world) as [Hw|Hw]; rewrite H in Hw; [discriminate Hw|exact Hw].
Qed.
Lemma moving_in_leaks :
  exists E w f p q, history E w f /\ tstep false (OMoveAssign p q) f <> None /\
    exists N, forall n, N <= n -> exists w' w'', run E n (OMoveAssign p q) w = Ok tt w' /\ run E n OEnd w' = Ok tt w'' /\ w_vars w'' = [] /\ w_heap w'' <> ∅.
Proof.
  exists calm, parent_world, [Some (Node 2 6 [Some (Node 2 5 [])])], [0; 0], [0]. split; [apply parent_history|]. split; [done|]. exists 9. intros n Hn.
  assert (exists w' w'', run calm 9 (OMoveAssign [0; 0] [0]) parent_world = Ok tt w' /\ run calm 9 OEnd w' = Ok tt w'' /\ w_vars w'' = [] /\
    w_heap w'' !! 1 = Some (Block 16 (Some (Obj 2 6 [Any (Some 2) (PHeap 1 16) None])))) as (w' & w'' & H1 & H2 & H3 & H4).
  { exists (after (run calm 9 (OMoveAssign [0; 0] [0]) parent_world)), (after (run calm 9 OEnd (after (run calm 9 (OMoveAssign [0; 0] [0]) parent_world)))).
    split; [vm_compute; reflexivity|]. split; [vm_compute; reflexivity|]. split; vm_compute; reflexivity. }
  exists w', w''.
  destruct (more_run calm 9 n (OMoveAssign [0; 0] [0]) Hn parent_world) as [Hw|Hw]; rewrite H1 in Hw; [discriminate Hw|].
  destruct (more_run calm 9 n OEnd Hn w') as [Hw2|Hw2]; rewrite H2 in Hw2; [discriminate Hw2|].
  split; [exact Hw|]. split; [exact Hw2|]. split; [done|]. intros He. rewrite He, lookup_empty in H4. discriminate H4.
Qed.
