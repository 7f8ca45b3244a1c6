(** * Stats, level constants and stat functions.

    Models simulator/game_data/game_consts.py, simulator/calcs/stat_fns.py,
    simulator/game_data/{job_class_fns,job_class_fns_data,testing/job_class_fns}.py,
    simulator/processed_stats.py and simulator/stats.py.  All stat values are
    rationals; every arithmetic operation of the code is rounded ([fl]), which is
    the identity on the integers the code manipulates here. *)

From Coq Require Import ZArith QArith Qround List String Bool.
From Verif Require Import Base Float Strings Types Lookup.
Import ListNotations.
Open Scope string_scope.
Open Scope Z_scope.

Definition q (z : Z) : Q := inject_Z z.

(** game_consts.py lines 8-14 *)
Definition GCD_RECAST_TIME : Z := 2500.
Definition DOT_TICK_INTERVAL : Z := 3000.
Definition DAMAGE_SNAPSHOT_TIME_BEFORE_CAST_FINISHES : Z := 500.
Definition DH_DAMAGE_MULT_BONUS : Q := dec 25 100.
Definition MIN_GCD_RECAST_TIME : Z := 1500.
Definition MULTI_TARGET_DELAY_PER_TARGET : Z := 135.

(** One column of the tables of game_consts.py lines 18-46. *)
Record consts := mkConsts {
  c_div : Z; c_main : Z; c_sub : Z;
  c_fap : Z; c_fap_tank : Z; c_ten : Z; c_dh : Z; c_speed : Z;
  c_crit0 : Z; c_crit1 : Z; c_crit2 : Z; c_det : Z
}.
Definition consts_90 : consts := mkConsts 1900 390 400 195 156 100 550 130 200 50 400 140.
Definition consts_100 : consts := mkConsts 2780 440 420 237 190 112 550 130 200 50 400 140.
(** game_consts.py lines 53-111: version "test" has its own column (equal to
    level 90); otherwise a dict lookup by level. *)
Definition get_consts (version : string) (level : Z) : res consts :=
  if String.eqb version "test" then Ok consts_90
  else if level =? 90 then Ok consts_90
  else if level =? 100 then Ok consts_100
  else Err KeyError.

(** stat_fns.py lines 6-15 *)
Definition time_using_speed_stat (c : consts) (t_ms : Z) (speed_stat : Q) : Z :=
  let tmp := fceil (fdiv (fmul (q (c_speed c)) (fsub (q (c_sub c)) speed_stat)) (q (c_div c))) in
  let tmp2 := fdiv (fmul (q t_ms) (fadd (q 1000) tmp)) (q 10000) in
  let tmp3 := fdiv (ffloor tmp2) (q 100) in
  qtrunc (fmul (q 1000) tmp3).
Definition get_time_using_speed_stat (t_ms : Z) (speed_stat : Q) (version : string) (level : Z)
  : res Z :=
  let* c := get_consts version level in Ok (time_using_speed_stat c t_ms speed_stat).

(** stat_fns.py lines 17-31 *)
Definition crit_points (c : consts) (crit_stat : Q) : Q :=
  ffloor (fdiv (fmul (q (c_crit0 c)) (fsub crit_stat (q (c_sub c)))) (q (c_div c))).
Definition crit_rate_of (c : consts) (crit_stat : Q) : Q :=
  fdiv (fadd (crit_points c crit_stat) (q (c_crit1 c))) (q 1000).
Definition crit_bonus_of (c : consts) (crit_stat : Q) : Q :=
  fdiv (fadd (crit_points c crit_stat) (q (c_crit2 c))) (q 1000).
(** stat_fns.py lines 33-39 *)
Definition dh_rate_of (c : consts) (dh_stat : Q) : Q :=
  fdiv (ffloor (fdiv (fmul (q (c_dh c)) (fsub dh_stat (q (c_sub c)))) (q (c_div c)))) (q 1000).
(** stat_fns.py lines 41-45 *)
Definition fWD (c : consts) (wd job_mod : Q) : Q :=
  ffloor (fadd (fdiv (fmul (q (c_main c)) job_mod) (q 1000)) wd).
(** stat_fns.py lines 47-54 *)
Definition fSpd (c : consts) (speed : Q) : Q :=
  ffloor (fadd (fdiv (fmul (q (c_speed c)) (fsub speed (q (c_sub c)))) (q (c_div c))) (q 1000)).
(** stat_fns.py lines 56-62 *)
Definition fTnc (c : consts) (ten : Q) : Q :=
  fadd (ffloor (fdiv (fmul (q (c_ten c)) (fsub ten (q (c_sub c)))) (q (c_div c)))) (q 1000).
(** stat_fns.py lines 64-84 *)
Definition fAP (c : consts) (main_stat : Q) (is_tank : bool) : Q :=
  fadd (ffloor (fdiv (fmul (q (if is_tank then c_fap_tank c else c_fap c))
                        (fsub main_stat (q (c_main c)))) (q (c_main c)))) (q 100).
(** stat_fns.py lines 86-93 *)
Definition fDet (c : consts) (det : Q) : Q :=
  fadd (ffloor (fdiv (fmul (q (c_det c)) (fsub det (q (c_main c)))) (q (c_div c)))) (q 1000).
(** stat_fns.py lines 95-104 *)
Definition fDetDH (c : consts) (det dh : Q) : Q :=
  fadd (fDet c det)
    (ffloor (fdiv (fmul (q (c_det c)) (fsub dh (q (c_sub c)))) (q (c_div c)))).
(** stat_fns.py lines 106-109 *)
Definition fAuto (c : consts) (wd weapon_delay job_mod : Q) : Q :=
  ffloor (fmul (ffloor (fadd (fdiv (fmul (q (c_main c)) job_mod) (q 1000)) wd))
            (fdiv weapon_delay (q 3))).

(** ** Jobs *)

(** job_class_fns.py lines 10-32 and testing/job_class_fns.py lines 2-8 *)
Definition job_mods : dict Z :=
  [("SCH", 115); ("SGE", 115); ("WHM", 115); ("AST", 115); ("WAR", 105); ("DRK", 105);
   ("PLD", 100); ("GNB", 100); ("SAM", 112); ("DRG", 115); ("RPR", 115); ("MNK", 110);
   ("NIN", 110); ("VPR", 110); ("DNC", 115); ("MCH", 115); ("BRD", 115); ("RDM", 115);
   ("SMN", 115); ("BLM", 115); ("PCT", 115)].
Definition test_job_mods : dict Z :=
  [("test_job", 115); ("test_job2", 105); ("test_tank_job", 105); ("test_healer_job", 115);
   ("test_job_haste", 115)].
Definition is_test (version : string) : bool := String.eqb version "test".
Definition job_mod_of (version job : string) : res Z :=
  of_option KeyError (dget job (if is_test version then test_job_mods else job_mods)).

(** job_class_fns.py lines 34-48 and testing/job_class_fns.py line 9 *)
Definition uses_sks (version job : string) : bool :=
  if is_test version then smem job ["test_job"; "test_tank_job"]
  else smem job ["WAR"; "DRK"; "PLD"; "GNB"; "SAM"; "DRG"; "RPR"; "MNK"; "NIN"; "VPR"; "DNC";
                 "MCH"; "BRD"].

(** job_class_fns.py lines 50-67 and testing/job_class_fns.py lines 11-18 *)
Definition trait_damage_mult_of (version job : string) : Q :=
  if is_test version then
    if String.eqb job "test_job2" then dec 140 100
    else if String.eqb job "test_healer_job" then dec 130 100 else 1%Q
  else if smem job ["SCH"; "SGE"; "WHM"; "AST"; "RDM"; "SMN"; "BLM"; "PCT"] then dec 130 100
  else if smem job ["DNC"; "BRD"; "MCH"] then dec 120 100 else 1%Q.

(** job_class_fns_data.py lines 1-10; the two tables are equal. *)
Definition reduction_data (level : Z) : res (dict (dict Q)) :=
  if level =? 90 then Ok [("6.55", [("MNK", dec 2 10)])]
  else if level =? 100 then
    Ok [("6.55", [("MNK", dec 2 10)]); ("7.0", [("MNK", dec 2 10); ("NIN", dec 15 100)])]
  else Err KeyError.
(** job_class_fns.py lines 69-96 and testing/job_class_fns.py lines 20-32 *)
Definition trait_reduction_of (version job : string) (level : Z) : res Q :=
  if is_test version then
    Ok (if String.eqb job "test_job_haste" then dec 2 10 else 0%Q)
  else
    let* data := reduction_data level in
    Ok (match get_greatest_dict_val data version with
        | Some t => match dget job t with Some x => x | None => 0%Q end
        | None => 0%Q
        end).

(** job_class_fns.py lines 98-116 and testing/job_class_fns.py lines 34-48 *)
Definition is_tank (version job : string) : bool :=
  if is_test version then smem job ["test_tank_job"]
  else smem job ["GNB"; "WAR"; "PLD"; "DRK"].
Definition is_healer (version job : string) : bool :=
  if is_test version then smem job ["test_healer_job"]
  else smem job ["SCH"; "WHM"; "AST"; "SGE"].
Definition is_caster (version job : string) : bool :=
  if is_test version then false
  else smem job ["RDM"; "BLM"; "SMN"; "PCT"].

(** game_consts.py lines 121-147 *)
Definition weapon_delays : dict Q :=
  [("PLD", dec 224 100); ("WAR", dec 336 100); ("DRK", dec 296 100); ("GNB", dec 280 100);
   ("DRG", dec 280 100); ("RPR", dec 320 100); ("MNK", dec 256 100); ("SAM", dec 264 100);
   ("NIN", dec 256 100); ("VPR", dec 264 100); ("BRD", dec 304 100); ("MCH", dec 264 100);
   ("DNC", dec 312 100); ("BLM", dec 328 100); ("SMN", dec 312 100); ("RDM", dec 344 100);
   ("PCT", dec 296 100); ("WHM", dec 344 100); ("SCH", dec 312 100); ("AST", dec 320 100);
   ("SGE", dec 280 100)].

(** simulator/stats.py lines 9-21 and the fields of processed_stats.py lines 8-41.
    The stats that ProcessedStats needs are required to be numbers here (with
    None, Stats(...) itself raises TypeError). *)
Record stats := mkStats {
  st_wd : Q;
  st_weapon_delay : Q;
  st_main_stat : Q;
  st_det : Q;
  st_dh : Q;
  st_crit : Q;
  st_speed : Q;
  st_job : string;
  st_version : string;
  st_tenacity : option Q;
  st_num_roles : Q;
  st_healer_strength : option Q;
  st_level : Z;
  (* processed *)
  ps_crit_rate : Q;
  ps_crit_bonus : Q;
  ps_det_bonus : Q;
  ps_dh_rate : Q;
  ps_job_mod : Q;
  ps_trait_damage_mult : Q;
  ps_trait_haste : Q;
  ps_trait_auto : Q
}.

(** Stats(...): stats.py lines 25-29 and processed_stats.py lines 8-41. *)
Definition make_stats (wd : Q) (weapon_delay : option Q) (main det dh crit speed : Q)
    (job version : string) (ten : option Q) (roles : Q) (healer : option Q) (level : Z) : res stats :=
  let* c := get_consts version level in
  let* jm := job_mod_of version job in
  let* red := trait_reduction_of version job level in
  let* wdelay := match weapon_delay with
                 | Some w => Ok w
                 | None => of_option KeyError (dget job weapon_delays)
                 end in
  Ok (mkStats wd wdelay main det dh crit speed job version ten roles healer level
        (crit_rate_of c crit) (crit_bonus_of c crit) (fDet c det) (dh_rate_of c dh)
        (q jm) (trait_damage_mult_of version job) red red).
