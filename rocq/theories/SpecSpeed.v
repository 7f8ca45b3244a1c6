(** * Specification vocabulary for C44 *)

From Coq Require Import ZArith QArith String.
From Verif Require Import Base Float Stats.

(** The same stats with another speed. *)
Definition with_speed (st : stats) (s : Q) : stats :=
  mkStats (st_wd st) (st_weapon_delay st) (st_main_stat st) (st_det st) (st_dh st) (st_crit st) s (st_job st)
    (st_version st) (st_tenacity st) (st_num_roles st) (st_healer_strength st) (st_level st)
    (ps_crit_rate st) (ps_crit_bonus st) (ps_det_bonus st) (ps_dh_rate st) (ps_job_mod st)
    (ps_trait_damage_mult st) (ps_trait_haste st) (ps_trait_auto st).
