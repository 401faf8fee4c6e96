(** Property C95: an any is an optional value; where it is stored cannot be told from what a program sees. *)
From stdpp Require Import gmap list.
From Verif Require Import TypeListModel TypeListSpec AnyModel AnyInv AnyHistory AnyExec AnyFacts AnyExamples AnyValueSpec AnyValueExamples AnyValue.

(** A program on anys gives the answers, and leaves the values, of the machine whose whole memory is an optional value for each any, if
    in that machine the same operations throw.  (An assignment of allocators that are neither always equal nor propagate may throw half
    way, see C08.) *)
Theorem C95_behaves_as_optional_values :
  forall E l w, env_wf E -> reachable E w -> Forall by_name l -> allowed_alloc E l w ->
  match play E l w with
  | Ok t w' => movable_alloc E = true \/ Forall2 (fun o a => assigns o = true -> a <> AThrew) l t ->
      exists v', vplay (e_meth E) (map threw t) l (content w) = Some (t, v') /\ forall k, content w' k = v' k
  | Term => Exists (may_terminate E) l
  | _ => False
  end.
Proof. exact behaves. Qed.
Print Assumptions C95_behaves_as_optional_values.

(** Two environments with the same methods; the buffers, the allocators, and the sizes, alignments and traits of the types may differ.
    If the same operations throw, the program gets the same answers in both, and the same values are left. *)
Theorem C95_storage_does_not_matter :
  forall E1 E2 l w1 w2 t1 t2 w1' w2', env_wf E1 -> env_wf E2 -> (forall T n y x, e_meth E1 T n y x = e_meth E2 T n y x) ->
  reachable E1 w1 -> reachable E2 w2 -> (forall k, content w1 k = content w2 k) -> Forall by_name l ->
  allowed_alloc E1 l w1 -> allowed_alloc E2 l w2 -> play E1 l w1 = Ok t1 w1' -> play E2 l w2 = Ok t2 w2' ->
  movable_alloc E1 = true \/ Forall2 (fun o a => assigns o = true -> a <> AThrew) l t1 ->
  movable_alloc E2 = true \/ Forall2 (fun o a => assigns o = true -> a <> AThrew) l t2 ->
  map threw t1 = map threw t2 -> t1 = t2 /\ forall k, content w1' k = content w2' k.
Proof. exact same_answers. Qed.
Print Assumptions C95_storage_does_not_matter.

(** If no constructor, move, copy or allocation throws (methods may), the program runs in both environments, to the same answers and values. *)
Theorem C95_same_for_all_storage_when_only_methods_throw :
  forall E1 E2 l, env_wf E1 -> env_wf E2 -> (forall T n y x, e_meth E1 T n y x = e_meth E2 T n y x) ->
  (forall k, e_throws E1 k = false) -> (forall k, e_throws E2 k = false) -> Forall by_name l ->
  forall w1 w2, reachable E1 w1 -> reachable E2 w2 -> (forall k, content w1 k = content w2 k) ->
  allowed_alloc E1 l w1 -> allowed_alloc E2 l w2 ->
  exists t w1' w2', play E1 l w1 = Ok t w1' /\ play E2 l w2 = Ok t w2' /\ forall k, content w1' k = content w2' k.
Proof. exact nothing_throws_same. Qed.
Print Assumptions C95_same_for_all_storage_when_only_methods_throw.

(** with exceptions *)
Example C95_ex : env_wf roughE /\ Forall by_name rough /\ allowed_alloc roughE rough init_world /\ movable_alloc roughE = true /\
  let t := [ADone; AThrew; ADone; AThrew; AThrew; ADone; ADone] in
  val_of (play roughE rough init_world) = Some t /\
  map (content (okw (play roughE rough init_world))) [0; 1; 2; 3; 4] =
    [Some (Some (1, 10)); Some None; None; Some (Some (0, 4)); Some (Some (0, 4))] /\
  option_map (fun r => (r.1, map r.2 [0; 1; 2; 3; 4])) (vplay meth_ex (map threw t) rough (fun _ => None)) =
    Some (t, [Some (Some (1, 10)); Some None; None; Some (Some (0, 4)); Some (Some (0, 4))]).
Proof. split; [apply mkE_wf|]. split; [apply by_nameb_sound; by vm_compute|]. split; [apply allowedb_sound; by vm_compute|]. by vm_compute. Qed.
(** everything on the heap, and almost everything in the buffers *)
Example C95_ex_storage : env_wf heapE /\ env_wf inlineE /\ Forall by_name errands /\
  allowed_alloc heapE errands init_world /\ allowed_alloc inlineE errands init_world /\
  val_of (play heapE errands init_world) = Some answers /\ val_of (play inlineE errands init_world) = Some answers /\
  map (content (okw (play heapE errands init_world))) [0; 1; 2; 3; 4; 7] =
    [Some (Some (1, 14)); Some (Some (5, 12)); Some None; None; Some None; Some (Some (0, 50))] /\
  map (content (okw (play inlineE errands init_world))) [0; 1; 2; 3; 4; 7] =
    map (content (okw (play heapE errands init_world))) [0; 1; 2; 3; 4; 7] /\
  map (address (okw (play heapE errands init_world))) [0; 1] <> map (address (okw (play inlineE errands init_world))) [0; 1] /\
  map (address (okw (play inlineE errands init_world))) [0; 1; 7] <> [Some (PData 0); Some (PData 1); Some (PData 7)].
Proof.
  split; [apply mkE_wf|]. split; [apply mkE_wf|]. split; [apply by_nameb_sound; by vm_compute|].
  split; [apply allowedb_sound; by vm_compute|]. split; [apply allowedb_sound; by vm_compute|]. by vm_compute.
Qed.
