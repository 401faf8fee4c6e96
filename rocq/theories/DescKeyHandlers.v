(** Proofs: registries looked up with the descriptors that anys, references and pointers report. *)
From stdpp Require Import gmap list.
From Coq Require Import ZArith.
From Verif Require Import TypeListModel AnyModel AnyInv AnyHistory AnyFacts DescModel DescSpec DescProofs PolyModel PolySpec PolyFacts PolyFacts2 DescKeyModel DescKeySpec
  DescKeyProofs DescKeyTable.

Lemma obs_names O mem : obs_wf O -> stored O mem ->
  exists name : option nat -> chars, (forall T, names mem (ob_desc O T) (name T)) /\ forall T U, name T = name U -> T = U.
Proof. intros [(name & Hn & Hi) _] Hm. exists name. split; [intros T; split; [by apply Hm|by apply Hn]|done]. Qed.
Lemma map_handler {X} O mem (t : dtree X) m T U x t' : obs_wf O -> stored O mem -> map_history mem t m -> map_put t (ob_desc O T) x = Some t' ->
  map_find t' (ob_desc O U) = if decide (U = T) then Some (Some x) else map_find t (ob_desc O U).
Proof.
  intros HO Hm Ht Hp. destruct (obs_names O mem HO Hm) as (name & Hn & Hi).
  rewrite (map_find_names mem t' (<[name T := x]> m) (map_puts mem t m _ _ x t' Ht (Hn T) Hp) _ (name U) (Hn U)), (map_find_names mem t m Ht _ (name U) (Hn U)).
  destruct (decide (U = T)) as [->|Hne]; [by rewrite lookup_insert|]. rewrite lookup_insert_ne; [done|]. intros E. apply Hne. symmetry. by apply Hi.
Qed.
Lemma table_handler {X} O mem h cached (t : list (list (nat * descriptor * X))) m T U x t' : obs_wf O -> stored O mem ->
  table_history mem h cached t m -> table_put h cached t (ob_desc O T) x = Some t' ->
  table_find h cached t' (ob_desc O U) = if decide (U = T) then Some (Some x) else table_find h cached t (ob_desc O U).
Proof.
  intros HO Hm Ht Hp. destruct (obs_names O mem HO Hm) as (name & Hn & Hi).
  rewrite (table_find_names mem h cached t' (<[name T := x]> m) (table_puts mem h cached t m _ _ x t' Ht (Hn T) Hp) _ (name U) (Hn U)), (table_find_names mem h cached t m Ht _ (name U) (Hn U)).
  destruct (decide (U = T)) as [->|Hne]; [by rewrite lookup_insert|]. rewrite lookup_insert_ne; [done|]. intros E. apply Hne. symmetry. by apply Hi.
Qed.
Lemma handlers_any {X} E O w i a mem h cached (t : dtree X) (b : list (list (nat * descriptor * X))) m n T x t' b' :
  env_wf E -> obs_wf O -> stored O mem -> reachable E w -> w_any w !! i = Some a -> reports_type (a_ms a) ->
  map_history mem t m -> map_put t (ob_desc O T) x = Some t' -> table_history mem h cached b n -> table_put h cached b (ob_desc O T) x = Some b' ->
  exists c d, content w i = Some c /\ op_desc O (OpAny i) w = Ok d w /\
    (option_map fst c = T -> map_find t' d = Some (Some x) /\ table_find h cached b' d = Some (Some x)) /\
    (option_map fst c <> T -> map_find t' d = map_find t d /\ table_find h cached b' d = table_find h cached b d).
Proof.
  intros HE HO Hm Hw Hi Hr Ht Hp Hb Hq. destruct (desc_any_fact E O w i a HE Hw Hi Hr) as (c & Hc & Hd). exists c, (ob_desc O (option_map fst c)).
  split; [done|]. split; [done|].
  rewrite (map_handler O mem t m T _ x t' HO Hm Ht Hp), (table_handler O mem h cached b n T _ x b' HO Hm Hb Hq).
  split; intros Hne; destruct (decide _); done.
Qed.
Lemma handlers_view {X} E O w o l s s' d c w' mem h cached (t : dtree X) (b : list (list (nat * descriptor * X))) m n T x t' b' :
  env_wf E -> obs_wf O -> stored O mem -> reachable E w -> begins w o s d -> chain s l s' ->
  (d = None -> null_safe l) -> fresh_names w (all_names o l) -> reports_type (sty_methods s') -> obtained O w o l c w' ->
  map_history mem t m -> map_put t (ob_desc O T) x = Some t' -> table_history mem h cached b n -> table_put h cached b (ob_desc O T) x = Some b' ->
  exists e, view_desc O c w' = Ok e w' /\
    (option_map fst d = T -> map_find t' e = Some (Some x) /\ table_find h cached b' e = Some (Some x)) /\
    (option_map fst d <> T -> map_find t' e = map_find t e /\ table_find h cached b' e = table_find h cached b e).
Proof.
  intros HE HO Hm Hw H1 H2 H3 H4 H5 H6 Ht Hp Hb Hq. exists (ob_desc O (option_map fst d)). split; [by eapply desc_view_fact|].
  rewrite (map_handler O mem t m T _ x t' HO Hm Ht Hp), (table_handler O mem h cached b n T _ x b' HO Hm Hb Hq).
  split; intros Hne; destruct (decide _); done.
Qed.
