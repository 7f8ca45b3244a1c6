(** * The example rotations.

    Models example_rotations/specific_rotations.py, example_rotation_utils.py,
    add_rotation_to_rotation_library.py and get_example_rotations.py.  The tables are
    in Data_Examples.v. *)

From Coq Require Import ZArith QArith List String Bool.
From Verif Require Import Base Float Strings Types Stats Library Events Rotation Csv.
Import ListNotations.
Open Scope string_scope.
Open Scope Z_scope.

(** One level of a rotation in a *_data.py table.  No table has "weapon_delay" or
    "healer_or_caster_strength". *)
Record example := mkExample {
  ex_wd : Z; ex_main : Z; ex_det : Z; ex_dh : Z; ex_crit : Z; ex_speed : Z;
  ex_tenacity : option Z; ex_job : string;
  ex_party : list party_skill; ex_skills : list string;
  ex_start : string; ex_end : option string
}.
(** A *_data.py table with the enable_autos its file passes. *)
Record example_file := mkExampleFile {
  ef_autos : bool; ef_rotations : dict (list (Z * example))
}.

(** specific_rotations.py lines 24-31 *)
Definition example_at (lv : Z) (levels : list (Z * example)) : option example := zget lv levels.
(** specific_rotations.py lines 33-43 *)
Definition rotation_is_valid (v : string) (x : example) : bool :=
  negb (str_ltb v (ex_start x) || match ex_end x with Some e => str_ltb e v | None => false end).

(** game_consts.py lines 150-159 *)
Definition healer_caster_strength : dict Z :=
  [("SCH", 351); ("WHM", 214); ("SGE", 234); ("AST", 195); ("SMN", 351); ("RDM", 214); ("BLM", 175); ("PCT", 214)].
(** stats.py line 21: Stats(...) without a level *)
Definition default_level : Z := 90.
(** specific_rotations.py lines 45-66: no level is passed on. *)
Definition example_stats (v : string) (x : example) : res stats :=
  let* delay := of_option KeyError (dget (ex_job x) weapon_delays) in
  make_stats (q (ex_wd x)) (Some delay) (q (ex_main x)) (q (ex_det x)) (q (ex_dh x)) (q (ex_crit x)) (q (ex_speed x))
    (ex_job x) v (option_map q (ex_tenacity x)) 5 (option_map q (dget (ex_job x) healer_caster_strength)) default_level.

(** sim_consts.py line 3 *)
Definition default_target : string := "Default Target".
(** example_rotation_utils.py lines 36-49 and e.g. healer/ast.py lines 21-32 *)
Definition get_example_rotation (autos : bool) (lib : library) (x : example) : res builder :=
  let* st := example_stats (lib_version lib) x in
  let* b := rb_init st lib (Some 0%Q) autos true None (RWTuple []) default_target in
  example_rotation b (ex_party x) (ex_skills x).

(** e.g. tank/war.py lines 9-23 *)
Definition add_file (lib : library) (res0 : dict builder) (f : example_file) : res (dict builder) :=
  foldM (fun acc kv =>
           match example_at (lib_level lib) (snd kv) with
           | None => Ok acc
           | Some x =>
               if rotation_is_valid (lib_version lib) x then
                 let* b := get_example_rotation (ef_autos f) lib x in
                 Ok (dset (fst kv) b acc)
               else Ok acc
           end) (ef_rotations f) res0.
(** get_example_rotations.py lines 8-16 *)
Definition get_example_rotations (files : list example_file) (lib : library) : res (dict builder) :=
  foldM (add_file lib) files [].
