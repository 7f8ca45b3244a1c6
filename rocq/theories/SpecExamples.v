(** * Specification vocabulary: the example rotations (C65-C68) *)

From Coq Require Import ZArith QArith List String Bool.
From Verif Require Import Base Float Types Stats Library Events Rotation SpecRun SpecCsv Examples.
Import ListNotations.
Open Scope string_scope.
Open Scope Z_scope.

(** The rotation is meant for this version. *)
Definition meant_for (v : string) (x : example) : bool :=
  str_leb (ex_start x) v && match ex_end x with Some e => str_leb v e | None => true end.
(** The rotations the tables offer at a version and level, in the order of the files,
    each with its file's choice of auto attacks. *)
Definition offered (v : string) (lv : Z) (files : list example_file) : list (string * (bool * example)) :=
  flat_map (fun f =>
    flat_map (fun kv => match zget lv (snd kv) with
                        | Some x => if meant_for v x then [(fst kv, (ef_autos f, x))] else []
                        | None => []
                        end) (ef_rotations f)) files.

(** The stats are those of the table. *)
Definition stats_from (x : example) (st : stats) : Prop :=
  st_wd st = inject_Z (ex_wd x) /\ st_main_stat st = inject_Z (ex_main x) /\ st_det st = inject_Z (ex_det x)
  /\ st_dh st = inject_Z (ex_dh x) /\ st_crit st = inject_Z (ex_crit x) /\ st_speed st = inject_Z (ex_speed x)
  /\ st_job st = ex_job x
  /\ match ex_tenacity x with Some t => st_tenacity st = Some (inject_Z t) | None => st_tenacity st = None end.
(** The builder of a table's rotation. *)
Definition example_builder (lib : library) (autos : bool) (x : example) (b : builder) : Prop :=
  b_library b = lib /\ b_autos b = autos
  /\ stats_from x (b_stats b) /\ st_version (b_stats b) = lib_version lib
  /\ b_fight_start b = None /\ b_windows b = WTuple [] /\ b_ignore_trailing b = true
  /\ (exists xss, b_timed b = List.concat xss /\ Forall2 (party_presses b) (ex_party x) xss)
  /\ Forall2 (seq_for b) (ex_skills x) (b_sequence b).
