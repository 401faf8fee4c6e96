(** Property C107: what a call of visit_invoke compares. *)
From stdpp Require Import gmap list.
From Coq Require Import Sorted.
From Verif Require Import TypeListModel AnyModel AnyInv AnyHistory AnyExec AnyFacts AnyExamples DescModel
  PolyModel PolySpec PolyExamples VisitModel VisitSpec VisitProofs VisitExamples VisitCostModel VisitCostProofs.

(** the lookup with its comparisons recorded is the lookup; it makes at most log2 n + 2 comparisons of keys, each between
    the key of the call and the key of an overload, and at most args_count times as many comparisons of descriptors *)
Theorem C107_lookup_is_logarithmic :
  forall O fs m w ts, obs_wf O -> overload_set fs -> fs <> [] -> build O fs w = Ok m w -> length ts <= args_count fs ->
  let key := pad (args_count fs) (ob_desc O None) (map (ob_desc O) ts) in
  fst (find_key_t key_less m key) = find_key key_less m key /\
  length (snd (find_key_t key_less m key)) <= Nat.log2 (length fs) + 2 /\
  (forall p, In p (snd (find_key_t key_less m key)) ->
     exists f, In f fs /\ (p = (key_of O fs f, key) \/ p = (key, key_of O fs f))) /\
  length (lookup_descriptors m key) <= args_count fs * (Nat.log2 (length fs) + 2).
Proof. exact lookup_cost. Qed.
Print Assumptions C107_lookup_is_logarithmic.
(** comparing keys with the comparisons of descriptors recorded is comparing keys *)
Theorem C107_recorded_comparison_is_the_comparison : forall a b, fst (key_cmp_t a b) = key_cmp a b.
Proof. exact key_cmp_erase. Qed.
Print Assumptions C107_recorded_comparison_is_the_comparison.
(** four overloads of up to two parameters: three or four comparisons of keys for a hit, two for a miss past the end *)
Example C107_ex : overload_set vis_set /\ (exists m, forall w, build obs0 vis_set w = Ok m w) /\
  match build obs0 vis_set init_world with
  | Ok m _ =>
      map (fun ts => let r := find_key_t key_less m (pad 2 (ob_desc obs0 None) (map (ob_desc obs0) ts)) in
                     (option_map (option_map ov_id) (fst r), length (snd r)))
        [[Some 1; Some 5]; [Some 1]; [Some 7; Some 7]]
      = [(Some (Some 0), 3); (Some (Some 2), 4); (Some None, 2)]
  | _ => False
  end.
Proof.
  split; [exact vis_overload_set|]. split; [destruct (build_ok obs0 vis_set obs0_wf vis_overload_set) as (m & H & _); by exists m|].
  by vm_compute.
Qed.

(** whatever algorithm std::sort is, the table is the one of the model *)
Theorem C107_every_sort_gives_the_table :
  forall O fs m w, obs_wf O -> overload_set fs -> m ≡ₚ pairs_of O fs ->
  StronglySorted (fun p q => key_less (fst q) (fst p) <> Some true) m -> build O fs w = Ok m w.
Proof. exact table_any_sort. Qed.
Print Assumptions C107_every_sort_gives_the_table.

(** the check of const looks the winner up again: it compares its pointer with those of all overloads listed before it *)
Theorem C107_const_check_scans_the_overloads :
  forall fs f consts w, overload_set fs -> In f fs ->
  runtime_const fs f consts w = match fst (runtime_const_t fs f consts) with Some b => Ok b w | None => UB UbNoBlock end /\
  exists pre post, fs = pre ++ f :: post /\ snd (runtime_const_t fs f consts) = map ov_id pre ++ [ov_id f].
Proof. exact const_check_cost. Qed.
Print Assumptions C107_const_check_scans_the_overloads.
(** so a checked call is not logarithmic, whatever the factor *)
Theorem C107_checked_call_logarithmic_refuted :
  forall c, exists fs f, overload_set fs /\ In f fs /\
  forall consts, length (snd (runtime_const_t fs f consts)) > c * (Nat.log2 (length fs) + 1).
Proof. exact const_check_not_log. Qed.
Print Assumptions C107_checked_call_logarithmic_refuted.
Example C107_check_ex : runtime_const_t vis_set (Ov 3 [Param 1 PVal; Param 1 PConst] false) [true; true] = (Some true, [0; 1; 2; 3]).
Proof. by vm_compute. Qed.
