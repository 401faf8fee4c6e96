(** The project's own tests of visit_invoke, type_switch, visitors, variant_swarm and data_parallel_vector, evaluated in the models.
    These are checks of the models, not proofs of properties.
    XV = tests/test_visit_invoke.cpp, XU = tests/test_utilities.cpp, XS = tests/test_variant_swarm.cpp, XP = tests/test_data_parallel_vector.cpp. *)
From stdpp Require Import gmap list.
From Verif Require Import TypeListModel AnyModel AnyInv AnyHistory AnyExamples DescModel PolyModel PolyExamples VisitModel SwitchModel CastModel
  ConformAny.

(** ** XV 25-67 *)
(** int 0, spaceship 1, planet 2; the result is the number of the overload, 4 is "int" *)
Definition collisions : list overload :=
  [ Ov 0 [Param 1 PConst; Param 2 PConst] false; Ov 1 [Param 1 PRef; Param 1 PConst] false; Ov 2 [Param 2 PConst; Param 1 PConst] false;
    Ov 3 [Param 2 PVal; Param 2 PRef] false; Ov 4 [Param 0 PRRef] false ].
Definition vars_collision : list overload :=
  [ Ov 0 [Param 1 PConst; Param 2 PConst] false; Ov 2 [Param 2 PConst; Param 1 PConst] false; Ov 4 [Param 0 PVal] false ].
Definition number_body : bodies := Bodies (fun id _ => retM id) (fun _ x => x).
(** a spaceship in any 0, a planet in any 1, ints in 2 and 3 *)
Definition space : list op :=
  [ OValue 0 0 [MDestroy] 1 (AVal 7) false; OValue 1 0 [MDestroy] 2 (AVal 150) false; OValue 2 0 [MDestroy] 0 (AVal 5) true;
    OValue 3 0 [MDestroy] 0 (AVal 5) true ].
Definition poly (k : kind) (T i : nat) : M varg :=
  let! c := start obs0 (OObj k T (Some (PData i)) [MTypeInfo]) in match c with CView p => retM (VPoly p) | _ => ubM UbIllFormed end.
Definition visit (fs : list overload) (args : M (list varg)) : option (option nat) :=
  on (stdE 40) space (let! l := args in resolve obs0 number_body false fs l).
Definition five (i : nat) : varg := VObj 0 (PData i) false.
Example visit_40 : visit vars_collision (retM [VVar (Some (1, PData 0)) false; VVar (Some (2, PData 1)) true]) = Some (Some 0).
Proof. by vm_compute. Qed.
Example any_cast_42 : on (stdE 40) space (cast_gen obs0 (VVar (Some (1, PData 0)) false) 1) = Some (false, Some (PData 0)) /\
  on (stdE 40) space (cast_gen obs0 (VVar (Some (2, PData 1)) true) 2) = Some (true, Some (PData 1)) /\
  on (stdE 40) space (cast_gen obs0 (VVar (Some (2, PData 1)) true) 0) = Some (true, None).
Proof. by vm_compute. Qed.
Example visit_58 : visit collisions (retM [five 2; five 3]) = Some None. Proof. by vm_compute. Qed.
Example visit_60 : visit collisions (let! r := poly KCRef 1 0 in retM [five 2; r]) = Some None. Proof. by vm_compute. Qed.
Example visit_62 : visit collisions (let! r := poly KCRef 1 0 in let! p := poly KCPtr 2 1 in retM [r; p]) = Some (Some 0). Proof. by vm_compute. Qed.
Example visit_64 : visit collisions (let! r := poly KCRef 1 0 in let! p := poly KPtr 0 2 in retM [r; p]) = Some None. Proof. by vm_compute. Qed.
Example visit_66 : visit collisions (let! r := poly KRef 0 2 in retM [r]) = Some (Some 4). Proof. by vm_compute. Qed.

(** ** XU 11-43 type_switch; int 0, string 1, float 6, bool 7, char 4, unsigned char 8, double 5; the visitor returns sizeof *)
Definition sizes : sbodies := SBodies (fun _ T _ => retM (match T with 0 | 6 => 4 | 5 => 8 | 4 | 7 | 8 => 1 | _ => 32 end)) (fun _ _ => retM 0).
Definition switch_prog : list op := [OValue 0 0 [MDestroy; MTypeInfo] 0 (AVal 0) true; OValue 1 0 [MDestroy; MTypeInfo] 1 (AVal 0) false].
Definition switch_ref : M ssubject :=
  let! c := start obs0 (OObj KCRef 0 (Some (PData 0)) [MTypeInfo]) in match c with CView p => retM (SubRef p) | _ => ubM UbIllFormed end.
Example switch_20 : on (stdE 40) switch_prog (let! s := switch_ref in
  type_switch obs0 sizes true s [SCase 6 0; SCase 7 0; SCases [4; 0; 8; 5] 0] SNoDefault) = Some (Some 0).
Proof. by vm_compute. Qed.
Definition switch_cases : list scase := [SCase 6 0; SCase 7 0; SCases [4; 8; 5] 0; SCase 0 0].
Example switch_26 : on (stdE 40) switch_prog (let! s := switch_ref in type_switch obs0 sizes false s switch_cases (SDefaultV 999)) = Some (Some 4).
Proof. by vm_compute. Qed.
Example switch_35 : on (stdE 40) switch_prog (type_switch obs0 sizes false (SubAny 1 false) switch_cases (SDefaultV 999)) = Some (Some 999).
Proof. by vm_compute. Qed.
