(** Concrete overload sets and bodies used by the examples beside the theorems about visit_invoke, and witnesses against C42, C43, C45. *)
From stdpp Require Import gmap list.
From Verif Require Import TypeListModel AnyModel AnyInv AnyHistory AnyExec AnyFacts AnyExamples DescModel
  PolyModel PolySpec PolyProofs PolyFacts PolyFacts2 PolyExamples PolyRefuted VisitModel VisitSpec.

(** 0: f(A const&, B)  1: f(B, A&)  2: f(A&)  3: f(A, A const&)  with A = type 1, B = type 5 *)
Definition vis_set : list overload :=
  [ Ov 0 [Param 1 PConst; Param 5 PVal] false; Ov 1 [Param 5 PVal; Param 1 PRef] false;
    Ov 2 [Param 1 PRef] false; Ov 3 [Param 1 PVal; Param 1 PConst] false ].
(** every body adds up what it sees, 1000 * its number, and sets the objects it got by non-const reference to 99 *)
Fixpoint vis_run (ps : list param) (bs : list bound) : M nat :=
  match ps, bs with
  | p :: ps', BVal _ x :: bs' => let! r := vis_run ps' bs' in retM (x + r)
  | p :: ps', BRef q :: bs' =>
      let! o := read_as (pm_ty p) q in
      (match pm_kind p with PRef | PRRef => write_place q (Some (Obj (o_ty o) 99 (o_id o))) | _ => retM tt end) ;;;
      let! r := vis_run ps' bs' in retM (o_val o + r)
  | _, _ => retM 0
  end.
Definition vis_body (fs : list overload) (moved : nat -> nat) : bodies :=
  Bodies (fun id bs => match List.find (fun f => ov_id f =? id) fs with
                       | Some f => let! r := vis_run (ov_params f) bs in retM (1000 * id + r)
                       | None => retM 0 end)
         (fun _ x => moved x).

Lemma obs_between : between obsE obs_w.
Proof.
  exists obs_w, []. split; [apply obs_w_reachable|]. exists (w_sref obs_w). split; [|split; [done|]].
  - destruct obs_w. reflexivity.
  - intros r H. left. exact H.
Qed.
Lemma den_any i c T x : methods_of obs_w i = Some eqs -> content obs_w i = Some (Some (T, x)) -> forall q, address obs_w i = Some q ->
  arg_denotes obsE obs0 obs_w (VAny i c) (Some (T, q)).
Proof.
  intros Hm Hc q Hq. destruct (obs_any i eqs Hm) as (a & Ha & Hma). eapply ad_any; [exact Ha| |].
  - rewrite Hma. left. right. right. right. right. left. reflexivity.
  - split; [exact Hq|]. exists x. exact Hc.
Qed.
Lemma den_empty i c : methods_of obs_w i = Some eqs -> content obs_w i = Some None -> arg_denotes obsE obs0 obs_w (VAny i c) None.
Proof.
  intros Hm Hc. destruct (obs_any i eqs Hm) as (a & Ha & Hma). eapply ad_any; [exact Ha| |exact Hc].
  rewrite Hma. left. right. right. right. right. left. reflexivity.
Qed.

Lemma read_as_cases T q w : (exists o, obj_at w q = Some o /\ read_as T q w = Ok o w) \/ exists u, read_as T q w = UB u.
Proof.
  unfold read_as, read_obj. destruct q as [i|b]; cbn [obj_at]; unfold bindM, get_any, get_block.
  - destruct (w_any w !! i) as [a|]; [|right; by eexists]. destruct (a_un a) as [| |o]; try (right; by eexists). cbn. destruct (bool_decide (o_ty o = T)); cbn; [left|right]; by eexists.
  - destruct (w_heap w !! b) as [x|]; [|right; by eexists]. destruct (b_obj x) as [o|]; [|right; by eexists]. cbn. destruct (bool_decide (o_ty o = T)); cbn; [left|right]; by eexists.
Qed.
Lemma vis_run_keeps : forall ps bs w,
  match vis_run ps bs w with
  | Ok _ w' | Exn w' => forall q, (forall i p, nth_error ps i = Some p -> nth_error bs i = Some (BRef q) -> pm_kind p = PConst) -> obj_at w' q = obj_at w q
  | _ => True
  end.
Proof.
  induction ps as [|p ps IH]; intros bs w; [done|]. destruct bs as [|[T x|q] bs]; cbn [vis_run]; [done|..].
  - unfold bindM. specialize (IH bs w). destruct (vis_run ps bs w) as [r w'|w'| |]; cbn; try done; intros q Hq; apply IH; intros i p' H1 H2; exact (Hq (S i) p' H1 H2).
  - destruct (read_as_cases (pm_ty p) q w) as [(o & Ho & Hrd)|(u & Hrd)].
    2:{ unfold bindM at 1. by rewrite Hrd. }
    rewrite (bind_ok _ _ _ _ _ Hrd).
    assert (Hk : forall w1, (forall r, (r = q -> pm_kind p = PConst \/ pm_kind p = PVal) -> obj_at w1 r = obj_at w r) ->
      match (let! r := vis_run ps bs in retM (o_val o + r)) w1 with
      | Ok _ w' | Exn w' => forall r, (forall i p', nth_error (p :: ps) i = Some p' -> nth_error (BRef q :: bs) i = Some (BRef r) -> pm_kind p' = PConst) -> obj_at w' r = obj_at w r
      | _ => True end).
    { intros w1 Hw1. specialize (IH bs w1). unfold bindM. destruct (vis_run ps bs w1) as [r w'|w'| |]; try done; cbn; intros r' Hr;
        (rewrite IH; [|intros i p' H1 H2; exact (Hr (S i) p' H1 H2)]); apply Hw1; intros ->; left; exact (Hr 0 p eq_refl eq_refl). }
    destruct (pm_kind p) eqn:Hpk; unfold retM at 1; unfold bindM at 1.
    1,2: apply Hk; done.
    all: destruct (write_place_ok w q o (Obj (o_ty o) 99 (o_id o)) Ho) as (w1 & -> & _ & Hoth & _); apply Hk; intros r Hr; apply Hoth; intros ->; destruct (Hr eq_refl); done.
Qed.
Lemma vis_respects fs moved f : overload_set fs -> In f fs -> respects_const (vis_body fs moved) f.
Proof.
  intros [_ Hid] Hf bs w. cbn [bo_run vis_body]. destruct (List.find (fun g => ov_id g =? ov_id f) fs) as [g|] eqn:Hg.
  - apply find_some in Hg as [Hg He]. apply Nat.eqb_eq in He. assert (g = f) as -> by by apply Hid.
    unfold bindM. pose proof (vis_run_keeps (ov_params f) bs w) as H. destruct (vis_run (ov_params f) bs w); done.
  - done.
Qed.
Lemma vis_overload_set : overload_set vis_set.
Proof.
  split.
  - repeat (apply NoDup_cons; split; [cbn; set_solver|]). constructor.
  - intros f g Hf Hg. cbn in Hf, Hg. intuition; subst; done.
Qed.

(** the argument list (any 0 holding A, any 2 holding B) *)
Lemma vis_args c0 c2 : Forall2 (arg_denotes obsE obs0 obs_w) [VAny 0 c0; VAny 2 c2] [Some (1, PHeap 0); Some (5, PData 2)].
Proof.
  constructor; [|constructor; [|constructor]].
  - eapply (den_any 0 c0 1 10); [vm_compute; reflexivity|vm_compute; reflexivity|vm_compute; reflexivity].
  - eapply (den_any 2 c2 5 10); [vm_compute; reflexivity|vm_compute; reflexivity|vm_compute; reflexivity].
Qed.

(** ** Witnesses *)
Lemma fptr_refuted :
  exists E O B fs args ds w f, env_wf E /\ obs_wf O /\ between E w /\ overload_set fs /\ Forall2 (arg_denotes E O w) args ds /\ last_not_empty ds /\
  In f fs /\ matches f ds /\ const_ok f (map argument_const args) /\ resolve O B true fs args w = UB UbAssert /\ resolve O B false fs args w = UB UbAssert.
Proof.
  set (f := Ov 0 [Param 1 PConst] true). exists obsE, obs0, (vis_body [f] (fun x => x)), [f], [VAny 0 false], [Some (1, PHeap 0)], obs_w, f.
  split; [apply mkE_wf|]. split; [apply obs0_wf|]. split; [apply obs_between|]. split.
  { split; [apply NoDup_singleton|]. intros g h [<-|[]] [<-|[]] _. reflexivity. }
  split.
  { constructor; [|constructor]. eapply (den_any 0 false 1 10); vm_compute; reflexivity. }
  split; [intros [|? [|? ?]]; discriminate|]. split; [left; reflexivity|]. split; [reflexivity|]. split.
  { intros [|[|i]] p Hp Hc; try discriminate. }
  split; vm_compute; reflexivity.
Qed.

Lemma arity_refuted :
  exists E O B B' fs args ds w, env_wf E /\ obs_wf O /\ between E w /\ overload_set fs /\ well_called fs args /\ Forall2 (arg_denotes E O w) args ds /\
  agree_on (fun f => arity f = length args) fs B B' /\
  val_of (resolve O B true fs args w) = Some (Some 10) /\ val_of (resolve O B' true fs args w) = Some (Some 77) /\ forall f, In f fs -> ~ matches f ds.
Proof.
  set (f := Ov 0 [Param 1 PConst] false). set (g := Ov 1 [Param 1 PConst; Param 5 PConst] false).
  exists obsE, obs0, (vis_body [f; g] (fun x => x)),
    (Bodies (fun id bs => if id =? 0 then retM 77 else bo_run (vis_body [f; g] (fun x => x)) id bs) (fun _ x => x)),
    [f; g], [VAny 0 false; VAny 3 false], [Some (1, PHeap 0); None], obs_w.
  split; [apply mkE_wf|]. split; [apply obs0_wf|]. split; [apply obs_between|]. split.
  { split; [repeat (apply NoDup_cons; split; [cbn; set_solver|]); constructor|]. intros h k [<-|[<-|[]]] [<-|[<-|[]]]; try reflexivity; discriminate. }
  split.
  { split; exists g; (split; [right; left; reflexivity|]); [reflexivity|]. intros [|[|[|i]]] p; discriminate. }
  split.
  { constructor; [|constructor; [|constructor]].
    - eapply (den_any 0 false 1 10); vm_compute; reflexivity.
    - apply den_empty; vm_compute; reflexivity. }
  split.
  { split; [reflexivity|]. intros h [<-|[<-|[]]] Hh; [discriminate|reflexivity]. }
  split; [vm_compute; reflexivity|]. split; [vm_compute; reflexivity|]. intros h [<-|[<-|[]]]; discriminate.
Qed.

Lemma by_value_refuted :
  exists E O B fs args ds w i, env_wf E /\ obs_wf O /\ between E w /\ overload_set fs /\ well_called fs args /\ Forall2 (arg_denotes E O w) args ds /\
  (forall f, In f fs -> respects_const B f) /\ args = [VAny i true] /\
  val_of (resolve O B false fs args w) = Some (Some 10) /\ content w i = Some (Some (1, 10)) /\ content (okw (resolve O B false fs args w)) i = Some (Some (1, 0)).
Proof.
  set (f := Ov 0 [Param 1 PVal] false).
  assert (Hset : overload_set [f]).
  { split; [apply NoDup_singleton|]. intros g h [<-|[]] [<-|[]] _. reflexivity. }
  exists obsE, obs0, (vis_body [f] (fun x => 0)), [f], [VAny 0 true], [Some (1, PHeap 0)], obs_w, 0.
  split; [apply mkE_wf|]. split; [apply obs0_wf|]. split; [apply obs_between|]. split; [exact Hset|]. split.
  { split; exists f; (split; [left; reflexivity|]); [reflexivity|]. intros [|[|i]] p Hp; try discriminate. injection Hp as <-. left. reflexivity. }
  split.
  { constructor; [|constructor]. eapply (den_any 0 true 1 10); vm_compute; reflexivity. }
  split; [intros g Hg; by apply vis_respects|]. split; [reflexivity|]. split; [vm_compute; reflexivity|]. split; vm_compute; reflexivity.
Qed.
