(** * C65-C68: the example rotations the project ships *)

From Coq Require Import ZArith QArith List String Bool.
From Verif Require Import Base Float Types Stats Library Events Rotation SpecGame SpecRun SpecCsv GameLib Examples Data_Examples
  SpecExamples ExampleFacts.
Import ListNotations.
Open Scope string_scope.
Open Scope Z_scope.

(** C65 *)
Theorem C65_examples_run : forall v lv lib, create_skill_library v lv = Ok lib -> v <> "test" ->
  exists d, get_example_rotations example_files lib = Ok d
    /\ forall n b, In (n, b) d -> exists b', get_skill_timing b = Ok b'.
Proof. exact examples_run. Qed.
Print Assumptions C65_examples_run.

Theorem C65_test_version_refuted : forall lv lib,
  create_skill_library "test" lv = Ok lib -> get_example_rotations example_files lib = Err KeyError.
Proof. exact test_raises. Qed.
Print Assumptions C65_test_version_refuted.

Example C65_case : exists lib d, create_skill_library "7.05" 100 = Ok lib /\ get_example_rotations example_files lib = Ok d
  /\ forall n, In n (map fst (offered "7.05" 100 example_files)) -> exists b, In (n, b) d.
Proof. exact case_705. Qed.
Example C65_names : map fst (offered "7.05" 100 example_files)
  = ["WAR"; "PLD"; "GNB"; "DRK"; "WHM"; "SGE"; "SCH"; "AST"; "BRD"; "DNC"; "MCH"; "BLM"; "PCT"; "PCT 7.0"; "RDM"; "SMN"; "DRG";
     "MNK"; "NIN"; "RPR"; "SAM"; "VPR"; "VPR 7.0"].
Proof. vm_compute. reflexivity. Qed.
Example C65_test_loads : exists lib, create_skill_library "test" 90 = Ok lib.
Proof. exact test_loads. Qed.

(** C66 *)
Theorem C66_level_90 : forall lib d n b,
  get_example_rotations example_files lib = Ok d -> In (n, b) d -> st_level (b_stats b) = 90.
Proof. exact returned_level. Qed.
Print Assumptions C66_level_90.

Theorem C66_library_level_refuted : exists lib d b,
  create_skill_library "7.05" 100 = Ok lib /\ get_example_rotations example_files lib = Ok d
  /\ In ("NIN", b) d /\ st_level (b_stats b) <> lib_level lib.
Proof. exact wrong_level. Qed.
Print Assumptions C66_library_level_refuted.

(** Ninja's trait makes it 15% faster at level 100; the example goes without. *)
Theorem C66_ninja_haste_refuted : forall v lib d b,
  create_skill_library v 100 = Ok lib -> get_example_rotations example_files lib = Ok d -> In ("NIN", b) d ->
  st_job (b_stats b) = "NIN" /\ (ps_trait_haste (b_stats b) == 0)%Q
  /\ trait_reduction_of v "NIN" 100 = Ok (dec 15 100).
Proof. exact ninja_slow. Qed.
Print Assumptions C66_ninja_haste_refuted.

(** C67 *)
Theorem C67_exactly_the_tables : forall lib d, get_example_rotations example_files lib = Ok d ->
  Forall2 (fun nx nb => fst nx = fst nb /\ example_builder lib (fst (snd nx)) (snd (snd nx)) (snd nb))
    (offered (lib_version lib) (lib_level lib) example_files) d.
Proof. exact returned_spec. Qed.
Print Assumptions C67_exactly_the_tables.

Example C67_early : map (fun nx => (fst nx, (fst (snd nx), ex_job (snd (snd nx))))) (offered "7.01" 90 example_files)
  = [("WAR", (true, "WAR")); ("WAR Party Buffs", (true, "WAR")); ("PLD", (true, "PLD")); ("BRD", (true, "BRD"));
     ("DNC", (true, "DNC")); ("MCH", (true, "MCH"))].
Proof. vm_compute. reflexivity. Qed.

(** C68 *)
Theorem C68_every_job : forall v lib d j,
  create_skill_library v 100 = Ok lib -> str_leb "7.05" v = true ->
  get_example_rotations example_files lib = Ok d -> In j (get_jobs lib) ->
  exists n b, In (n, b) d /\ st_job (b_stats b) = j.
Proof. exact late_jobs. Qed.
Print Assumptions C68_every_job.

Theorem C68_none_before : forall v lib d,
  create_skill_library v 100 = Ok lib -> str_ltb v "7.05" = true ->
  get_example_rotations example_files lib = Ok d -> d = [].
Proof. exact early_none. Qed.
Print Assumptions C68_none_before.

Theorem C68_every_job_at_90_refuted : exists lib, create_skill_library "6.55" 90 = Ok lib /\ In "AST" (get_jobs lib)
  /\ forall d n b, get_example_rotations example_files lib = Ok d -> In (n, b) d -> st_job (b_stats b) <> "AST".
Proof. exact no_astrologian. Qed.
Print Assumptions C68_every_job_at_90_refuted.

Example C68_loads : exists lib, create_skill_library "7.01" 100 = Ok lib.
Proof. exact early_loads. Qed.
