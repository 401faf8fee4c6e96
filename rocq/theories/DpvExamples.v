(** Programs used as examples for the theorems about data_parallel_vector. *)
From stdpp Require Import gmap list.
From Verif Require Import AnyModel DpvModel DpvSpec DpvProofs.

(** a checker for [vec_history]; statements it does not know are refused *)
Definition rowb (N : nat) (r : row) : bool := length r =? N.
Definition insideb (m : gmap nat (list row)) (x i : nat) : bool := match m !! x with Some v => i <? length v | None => false end.
Definition uptob (m : gmap nat (list row)) (x i : nat) : bool := match m !! x with Some v => i <=? length v | None => false end.
Definition newb (m : gmap nat (list row)) (x : nat) : bool := match m !! x with None => true | Some _ => false end.
Definition vec_legalb (N : nat) (o : dop) (m : gmap nat (list row)) : bool :=
  match o with
  | DNew x | DNewCount x _ => newb m x
  | DCopy x y => newb m x && negb (newb m y)
  | DSwap x y => negb (newb m x) && negb (newb m y)
  | DMoveAssign x y => negb (newb m x) && negb (newb m y) && negb (x =? y)
  | DPush x r | DResizeV x _ r => negb (newb m x) && rowb N r
  | DInsert x i r | DInsertN x i _ r => uptob m x i && rowb N r
  | DInsertRange x i false _ ord rs => uptob m x i && forallb (rowb N) rs && bool_decide (ord = seq 0 N)
  | DErase x i => insideb m x i
  | DPop x => insideb m x 0
  | DSet x i r => insideb m x i && rowb N r
  | DSetFrom x i y j | DSwapRows x i y j => insideb m x i && insideb m y j
  | _ => false
  end.
Lemma rowb_ok N r : rowb N r = true -> is_row N r. Proof. apply Nat.eqb_eq. Qed.
Lemma insideb_ok m x i : insideb m x i = true -> inside m x i.
Proof. unfold insideb. destruct (m !! x) as [v|] eqn:E; [|done]. intros H%Nat.ltb_lt. by exists v. Qed.
Lemma uptob_ok m x i : uptob m x i = true -> upto m x i.
Proof. unfold uptob. destruct (m !! x) as [v|] eqn:E; [|done]. intros H%Nat.leb_le. by exists v. Qed.
Lemma newb_ok m x : newb m x = true -> m !! x = None. Proof. unfold newb. by destruct (m !! x). Qed.
Lemma oldb_ok m x : negb (newb m x) = true -> is_Some (m !! x). Proof. unfold newb. destruct (m !! x); [by eexists|done]. Qed.
Lemma vec_legalb_ok N o m : vec_legalb N o m = true -> vec_legal N o m.
Proof.
  destruct o; cbn; try done; rewrite ?andb_true_iff; intros H; rewrite ?andb_true_iff in H; try (by apply newb_ok); try (by apply insideb_ok).
  - destruct H as [H1 H2]. split; [by apply newb_ok|by apply oldb_ok].
  - destruct H as [[H1 H2] H3]. split; [by apply oldb_ok|]. split; [by apply oldb_ok|]. by apply negb_true_iff, Nat.eqb_neq in H3.
  - destruct H as [H1 H2]. split; by apply oldb_ok.
  - destruct H as [H1 H2]. split; [by apply oldb_ok|by apply rowb_ok].
  - destruct H as [H1 H2]. split; [by apply uptob_ok|by apply rowb_ok].
  - destruct H as [H1 H2]. split; [by apply uptob_ok|by apply rowb_ok].
  - destruct moving; [done|]. rewrite !andb_true_iff in H. destruct H as [[H1 H2] H3]. split; [by apply uptob_ok|]. split.
    + apply Forall_forall. intros r Hr. apply rowb_ok. rewrite forallb_forall in H2. apply H2. by apply elem_of_list_In.
    + apply bool_decide_eq_true in H3. by rewrite H3.
  - destruct H as [H1 H2]. split; [by apply oldb_ok|by apply rowb_ok].
  - destruct H as [H1 H2]. split; [by apply insideb_ok|by apply rowb_ok].
  - destruct H as [H1 H2]. split; by apply insideb_ok.
  - destruct H as [H1 H2]. split; by apply insideb_ok.
Qed.
Fixpoint vec_runb (N : nat) (dfl : nat -> nat) (l : list dop) (m : gmap nat (list row)) : option (gmap nat (list row)) :=
  match l with [] => Some m | o :: tl => if vec_legalb N o m then vec_runb N dfl tl (fst (vec_step N dfl o m)) else None end.
Lemma vec_runb_from N dfl l : forall pre m m', vec_history N dfl pre m -> vec_runb N dfl l m = Some m' -> vec_history N dfl (pre ++ l) m'.
Proof.
  induction l as [|o l IH]; intros pre m m' Hh H; cbn in H; [injection H as <-; by rewrite app_nil_r|]. destruct (vec_legalb N o m) eqn:E; [|done]. apply vec_legalb_ok in E.
  specialize (IH (pre ++ [o]) _ m' (vh_snoc N dfl pre o m Hh E) H). by rewrite <- app_assoc in IH.
Qed.
Lemma vec_runb_ok N dfl l m : vec_runb N dfl l ∅ = Some m -> vec_history N dfl l m.
Proof. apply (vec_runb_from N dfl l [] ∅ m). constructor. Qed.

(** three fields; value initialised fields are 0; moved from values are 0 *)
Definition zero : nat -> nat := fun _ => 0.
Definition dpv_prog : list dop :=
  [DNewCount 1 1; DPush 1 [1; 2; 3]; DPush 1 [4; 5; 6]; DInsertN 1 1 2 [7; 8; 9]; DErase 1 0;
   DCopy 2 1; DInsertRange 2 1 false true [0; 1; 2] [[10; 11; 12]; [13; 14; 15]; [16; 17; 18]]; DPop 2; DSwap 1 2;
   DSwapRows 1 0 2 3; DResizeV 2 6 [19; 20; 21]; DSet 1 2 [22; 23; 24]].
Definition dpv_final : gmap nat (list row) := default ∅ (vec_runb 3 zero dpv_prog ∅).
Definition dpv_world : dworld := match dexec 3 zero zero dpv_prog ∅ with WOk w _ _ => w | _ => ∅ end.
Lemma dpv_prog_ok : vec_history 3 zero dpv_prog dpv_final.
Proof. apply vec_runb_ok. vm_compute. reflexivity. Qed.
Definition rows_of (w : dworld) (x : nat) : list (option row) :=
  match size_at w x with Some n => map (row_at w x) (seq 0 n) | None => [] end.
(** a program that inserts from a moving range in the middle *)
Definition move_prog : list dop := [DNew 1; DPush 1 [1; 2; 3]].
Definition move_final : gmap nat (list row) := default ∅ (vec_runb 3 zero move_prog ∅).
Definition move_world : dworld := match dexec 3 zero zero move_prog ∅ with WOk w _ _ => w | _ => ∅ end.
Lemma move_prog_ok : vec_history 3 zero move_prog move_final.
Proof. apply vec_runb_ok. vm_compute. reflexivity. Qed.
(** comparison by nat order and by case-insensitive-like weak order: 2n and 2n + 1 are equivalent *)
Definition by_value : nat -> nat -> nat -> option comparison := fun _ a b => Some (a ?= b).
Definition by_half : nat -> nat -> nat -> option comparison := fun _ a b => Some (Nat.div2 a ?= Nat.div2 b).
(** 0 is unordered with everything, as a NaN is *)
Definition with_nan : nat -> nat -> nat -> option comparison := fun _ a b => if (a =? 0) || (b =? 0) then None else Some (a ?= b).
