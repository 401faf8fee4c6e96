(** Concrete calls used by the examples beside the theorems about argument passing. *)
From stdpp Require Import gmap list.
From Verif Require Import CallModel CallSpec CallProofs.

(** objects 0, 1, 2 with the values 10, 11, 12 *)
Definition call_s : store := Store {[0 := 10; 1 := 11; 2 := 12]} 3 0 0.
Lemma call_s_wf : store_wf call_s.
Proof. intros o [v H]. cbn in *. repeat (apply lookup_insert_Some in H as [[<- _] | [_ H]]; [lia |]). apply lookup_singleton_Some in H as [<- _]. lia. Qed.
Definition quiet : tenv := TEnv (fun _ => false) (fun v => v + 100) false.
Definition quiet_rtl : tenv := TEnv (fun _ => false) (fun v => v + 100) true.
(** the fourth copy or move throws *)
Definition fourth : tenv := TEnv (Nat.eqb 3) (fun v => v + 100) false.
(** void f(self, T, T&, const T&, T&&, T) called with (lvalue 0, lvalue 1, prvalue 5, xvalue 2, prvalue 7) *)
Definition call_ks : list pkind := [PVal; PLref false; PLref true; PRref false; PVal].
Definition call_args : list arg := [ALv 0 false; ALv 1 false; APr 5; AXv 2 false; APr 7].
(** the body takes the last one as const T& and the rvalue reference by value *)
Definition call_ds : list pkind := [PVal; PLref false; PLref true; PVal; PLref true].
(** it returns the values it sees, and which of the caller's objects they are, and then writes 77 through the second parameter *)
Definition look (s : store) (p : param) : option nat * bool := (s_obj s !! p_obj p, bool_decide (p_obj p < 3)).
Definition call_body (ps : list param) (s : store) : cr (list (option nat * bool)) :=
  match ps !! 1 with
  | Some p => match s_obj s !! p_obj p with
              | Some _ => ROk (map (look s) ps) (put (p_obj p) 77 s)
              | None => ROk (map (look s) ps) s end
  | None => ROk (map (look s) ps) s
  end.
Lemma call_body_ok : body_ok call_body.
Proof.
  intros ps s W. unfold call_body. destruct (ps !! 1) as [p |]; [| done]. destruct (s_obj s !! p_obj p) eqn:H; [| done].
  assert (A : forall o, alive (put (p_obj p) 77 s) o <-> alive s o).
  { intros o. unfold alive. cbn. rewrite lookup_insert_is_Some. destruct (decide (p_obj p = o)) as [<- |]; [rewrite H |]; naive_solver. }
  split; [done |]. intros o Ho. apply A in Ho. by apply W.
Qed.
Lemma call_args_ok : call_ok call_s call_ks call_ds call_args.
Proof.
  split; try done.
  - intros i k a H1 H2. do 5 (destruct i as [| i]; [cbn in *; simplify_eq; cbn; done |]). done.
  - intros i k a H1 H2. do 5 (destruct i as [| i]; [cbn in *; simplify_eq; cbn; done |]). done.
  - intros i a o H1 H2. do 5 (destruct i as [| i]; [cbn in *; simplify_eq; cbn in *; simplify_eq; unfold alive; cbn; vm_compute; eauto |]). done.
  - intros i j k d a b o H1 H2 H3 [-> G] H4 N No.
    destruct i as [| [| [| [| [| i]]]]]; cbn in H1, H2, H3; simplify_eq.
    destruct j as [| [| [| [| [| j]]]]]; cbn in H4; simplify_eq; done.
Qed.
(** the caller's objects afterwards *)
Definition shown {A} (r : cr A) : option (option A * list (nat * nat) * nat) :=
  match r with
  | ROk a s => Some (Some a, map_to_list (s_obj s), s_copies s)
  | RExn s => Some (None, map_to_list (s_obj s), s_copies s)
  | _ => None
  end.
