(** * The getters of damage_simulator.py, and rotation_analysis_utils.get_expected_max_in_k_runs *)

From Coq Require Import ZArith QArith List String Bool.
From Verif Require Import Base Float Strings Types Lookup StatusEffect Stats Library Events Rotation DamageBuild Damage.
Import ListNotations.
Open Scope string_scope.
Open Scope Z_scope.

(** ** damage_simulator.py *)

(** Lines 10-29, PerInstanceDamage.  [pd_variance] stands for standard_deviation, the
    double square root of the variance. *)
Record per_damage := mkPD {
  pd_time : Z; pd_snapshot : option Z; pd_name : string; pd_potency : Q; pd_cond : cond; pd_effects : effects2;
  pd_expected : Q; pd_variance : Q; pd_id : Z; pd_target : string; pd_class : dclass
}.

(** What a constructed simulator keeps, lines 36-126.  An attribute that is only set
    on request is an option. *)
Record damage_sim := mkSim {
  sim_base : simulator; sim_expected : list Q; sim_variance : list Q;
  sim_crit : option (list (list bool)); sim_dh : option (list (list bool));
  sim_matrix : option (list (list Q)); sim_damage : list Q; sim_dps : list (option Q)
}.

(** The three matrices of [compute_damage]. *)
Definition damages (m : list (list (Q * bool * bool))) : list (list Q) := map (map (fun c => fst (fst c))) m.
Definition crits (m : list (list (Q * bool * bool))) : list (list bool) := map (map (fun c => snd (fst c))) m.
Definition dhs (m : list (list (Q * bool * bool))) : list (list bool) := map (map snd) m.

(** Lines 33-126 (without the printing of lines 46-47) *)
Definition make_sim (st : stats) (l : list instance) (num_samples : nat) (save_damage_matrix save_crit_dh_status : bool)
    (u_range u_sample : nat -> nat -> draws) : res damage_sim :=
  let* sim := ds_init st l in
  let* (ex, va) := expected_and_variance sim u_range in
  let* m := compute_damage (ds_tracker sim) num_samples u_sample in
  let tot := sampled_damage m num_samples in
  Ok (mkSim sim ex va
        (if save_crit_dh_status then Some (crits m) else None)
        (if save_crit_dh_status then Some (dhs m) else None)
        (if save_damage_matrix then Some (damages m) else None)
        tot (sampled_dps (fight_time (ds_instances sim)) tot)).

(** Lines 154-155, 109 *)
Definition get_event_ids (s : damage_sim) : list Z := map di_id (ds_instances (sim_base s)).
(** Lines 157-158, damage_tracker.py lines 252-257.  [np.squeeze] turns one row into a
    scalar, here a list of one. *)
Definition get_crit_and_dh_rates (s : damage_sim) : res (list Q * list Q) :=
  let tr := ds_tracker (sim_base s) in
  if dt_finalized tr then Ok (map r_crit_rate (dt_rows tr), map r_dh_rate (dt_rows tr)) else Err RuntimeError.
(** Lines 160-161, damage_tracker.py lines 259-264, likewise *)
Definition get_trait_damage_mult (s : damage_sim) : res (list Q) :=
  let tr := ds_tracker (sim_base s) in
  if dt_finalized tr then Ok (map r_trait (dt_rows tr)) else Err RuntimeError.
(** Lines 163-170 *)
Definition get_raw_damage (s : damage_sim) : list Q := sim_damage s.
Definition get_dps (s : damage_sim) : list (option Q) := sim_dps s.
Definition get_damage_time (s : damage_sim) : list Z := map r_time (dt_rows (ds_tracker (sim_base s))).
(** Lines 172-179: None unless saved; the statuses do not exist unless saved. *)
Definition get_damage_matrix (s : damage_sim) : option (list (list Q)) := sim_matrix s.
Definition get_crit_status (s : damage_sim) : res (list (list bool)) := of_option AttributeError (sim_crit s).
Definition get_dh_status (s : damage_sim) : res (list (list bool)) := of_option AttributeError (sim_dh s).
(** Lines 181-194: the ranges are computed again, with new draws [u]. *)
Definition get_damage_ranges (s : damage_sim) (u : nat -> nat -> draws) : res (list (string * list outcome)) :=
  let* rs := damage_ranges (ds_tracker (sim_base s)) u in
  Ok (combine (map (fun x => sk_name (di_skill x)) (ds_instances (sim_base s))) rs).
(** Lines 226-236; the square of the square root of the variance is taken for it. *)
Definition get_expected_damage_per_damage_instance (s : damage_sim) : list Q := sim_expected s.
Definition get_variance_per_damage_instance (s : damage_sim) : list Q := sim_variance s.
Definition get_expected_damage (s : damage_sim) : Q := qsum (sim_expected s).
Definition get_damage_variance (s : damage_sim) : Q := qsum (sim_variance s).

(** Lines 246-261 *)
Definition per_instance (x : instance) (r : row) (ex va : Q) : per_damage :=
  mkPD (r_time r) None (sk_name (di_skill x)) (r_potency r) (r_cond r) (r_effects r) ex va (di_id x) (di_target x) (r_class r).
Definition per_skill_rows (s : damage_sim) : list per_damage :=
  map (fun y => per_instance (fst (fst y)) (snd (fst y)) (fst (snd y)) (snd (snd y)))
    (combine (combine (ds_instances (sim_base s)) (dt_rows (ds_tracker (sim_base s)))) (combine (sim_expected s) (sim_variance s))).

(** Lines 140-151 *)
Definition with_snapshot (tbl : zdict (Z * string)) (p : per_damage) : res per_damage :=
  match zget (pd_id p) tbl with
  | None => Err AssertionError
  | Some (t, name) =>
      if String.eqb (pd_name p) name
      then Ok (mkPD (pd_time p) (Some t) (pd_name p) (pd_potency p) (pd_cond p) (pd_effects p) (pd_expected p) (pd_variance p)
                 (pd_id p) (pd_target p) (pd_class p))
      else Err AssertionError
  end.
(** Lines 238-266 and 129-152 *)
Definition get_per_skill_damage (s : damage_sim) (rb : option builder) : res (list per_damage) :=
  match rb with
  | None => Ok (per_skill_rows s)
  | Some b =>
      let* b' := get_skill_timing b in
      mapM (with_snapshot (snapshot_table (get_q (b_queue b')))) (per_skill_rows s)
  end.

(** ** rotation_analysis_utils.py *)

(** Lines 9: [np.random.choice(x, k)] with draws [pick 0 .. pick (k-1)] of indices, which
    raises for an empty [x]; [np.max], which raises for an empty choice. *)
Definition chosen (x : list Q) (k : nat) (pick : nat -> nat) : list Q := map (fun i => nth (pick i) x 0%Q) (seq 0 k).
Fixpoint max_of (m : Q) (l : list Q) : Q := match l with [] => m | a :: l' => max_of (if Qle_bool m a then a else m) l' end.
Definition best_of (x : list Q) (k : nat) (pick : nat -> nat) : res Q :=
  match x, chosen x k pick with
  | [], _ => Err ValueError
  | _, [] => Err ValueError
  | _, a :: l => Ok (max_of a l)
  end.
(** Lines 5-10; [pick trial i] are the draws; the mean is exact.  Without trials
    [np.mean] of nothing is NaN. *)
Definition expected_max_in_k_runs (x : list Q) (k num_trials : nat) (pick : nat -> nat -> nat) : res Q :=
  let* l := mapM (fun i => best_of x k (pick i)) (seq 0 num_trials) in
  match l with
  | [] => Err Unmodelled
  | _ => Ok (qsum l / inject_Z (Z.of_nat num_trials))%Q
  end.
