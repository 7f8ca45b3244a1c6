(** * Damage of an instance, damage tracker and simulator.

    Models simulator/calcs/compute_damage_utils.py, simulator/trackers/damage_tracker.py
    and simulator/damage_simulator.py. *)

From Coq Require Import ZArith QArith Qround List String Bool.
From Verif Require Import Base Float Strings Types Lookup StatusEffect Stats Events Rotation DamageBuild.
Import ListNotations.
Open Scope string_scope.
Open Scope Z_scope.

Definition effects2 := (status_effects * status_effects)%type.

(** ** compute_damage_utils.py *)

(** Lines 10-44: does any of the four sources force the status to [f]? *)
Definition forced_dh (f : forced) (d : damage_spec) (m : modifier) (e : effects2) : bool :=
  forced_eqb (ds_dh d) f || forced_eqb (sm_dh m) f
  || forced_eqb (ef_dh (fst e)) f || forced_eqb (ef_dh (snd e)) f.
Definition forced_crit (f : forced) (d : damage_spec) (m : modifier) (e : effects2) : bool :=
  forced_eqb (ds_crit d) f || forced_eqb (sm_crit m) f
  || forced_eqb (ef_crit (fst e)) f || forced_eqb (ef_crit (snd e)) f.

(** Lines 46-85 *)
Definition dh_bonus_multiplier (d : damage_spec) (m : modifier) (e : effects2) : Q :=
  if forced_dh F_YES d m e
  then fmul DH_DAMAGE_MULT_BONUS (fadd (ef_dh_rate_add (fst e)) (ef_dh_rate_add (snd e)))
  else 0%Q.
Definition crit_bonus_multiplier (st : stats) (d : damage_spec) (m : modifier) (e : effects2) : Q :=
  if forced_crit F_YES d m e
  then fmul (ps_crit_bonus st) (fadd (ef_crit_rate_add (fst e)) (ef_crit_rate_add (snd e)))
  else 0%Q.

(** Lines 87-89 *)
Definition compute_damage_mult (e : effects2) : Q :=
  fmul (ef_damage_mult (fst e)) (ef_damage_mult (snd e)).

(** Lines 91-139: (dh rate, crit rate, crit bonus) for a damage spec [d]. *)
Definition crit_rates_and_bonuses (st : stats) (d : damage_spec) (m : modifier) (e : effects2)
  : res (Q * Q * Q) :=
  if forced_dh F_YES d m e && forced_dh F_NO d m e then Err RuntimeError
  else if forced_crit F_YES d m e && forced_crit F_NO d m e then Err RuntimeError
  else
    let dh := if forced_dh F_YES d m e then 1%Q
              else if forced_dh F_NO d m e then 0%Q
              else fadd (fadd (ps_dh_rate st) (ef_dh_rate_add (fst e))) (ef_dh_rate_add (snd e)) in
    let crit := if forced_crit F_YES d m e then 1%Q
                else if forced_crit F_NO d m e then 0%Q
                else fadd (fadd (ps_crit_rate st) (ef_crit_rate_add (fst e)))
                       (ef_crit_rate_add (snd e)) in
    Ok (dh, crit, ps_crit_bonus st).

(** Lines 144-149 (= 220-225, 274-279, 403-410): buffed main stat *)
Definition buffed_main_stat (base : Q) (e : effects2) : Q :=
  fadd (ffloor (fmul (fmul base (ef_main_stat_mult (fst e))) (ef_main_stat_mult (snd e))))
    (fadd (ef_main_stat_add (fst e)) (ef_main_stat_add (snd e))).
(** [1 + 0.01 * stats.num_roles_in_party] *)
Definition party_bonus (st : stats) : Q := fadd 1 (fmul (dec 1 100) (st_num_roles st)).
(** Lines 144-150 *)
Definition party_main_stat (st : stats) (e : effects2) : Q :=
  ffloor (fmul (buffed_main_stat (st_main_stat st) e) (party_bonus st)).

(** Lines 161-168 *)
Definition det_dh_of (c : consts) (st : stats) (d : damage_spec) (m : modifier) (e : effects2) : Q :=
  if forced_dh F_YES d m e then fDetDH c (st_det st) (st_dh st) else ps_det_bonus st.

(** Lines 205-213: guaranteed crit/direct hit bonus and the single damage multiplier. *)
Definition finish_damage (st : stats) (d : damage_spec) (m : modifier) (e : effects2) (b : Q) : Q :=
  fmul (fadd b (fadd (ffloor (fmul b (dh_bonus_multiplier d m e)))
                  (ffloor (fmul b (crit_bonus_multiplier st d m e)))))
    (single_damage_mult d).

Definition st_is_tank (st : stats) : bool := is_tank (st_version st) (st_job st).
Definition uses_strength (st : stats) : bool :=
  is_healer (st_version st) (st_job st) || is_caster (st_version st) (st_job st).

(** StatFns.fTnc(stats.tenacity, ..): None - int is a TypeError. *)
Definition tnc_of (c : consts) (st : stats) : res Q :=
  let* t := of_option TypeError (st_tenacity st) in Ok (fTnc c t).

(** Lines 191-203 (= 363-374): the common physical formula up to the weapon. *)
Definition ap_det (p ap det : Q) : Q :=
  fdiv (ffloor (fdiv (fmul (fdiv (ffloor (fdiv (fmul p ap) (q 100))) (q 100)) det) (q 10))) (q 100).
(** Lines 194-202 *)
Definition with_tnc (c : consts) (st : stats) (b : Q) : res Q :=
  if st_is_tank st then
    let* t := tnc_of c st in Ok (fdiv (ffloor (fdiv (fmul b t) (q 10))) (q 100))
  else Ok b.

(** Lines 141-215 *)
Definition direct_damage (c : consts) (d : damage_spec) (m : modifier) (st : stats) (e : effects2) : res Q :=
  let ap := fAP c (party_main_stat st e) (st_is_tank st) in
  let wd := fWD c (st_wd st) (ps_job_mod st) in
  let det := det_dh_of c st d m e in
  let* b := if uses_strength st then
              let b0 := fdiv (ffloor (fdiv (fmul ap det) (q 1000))) (q 100) in
              Ok (ffloor (fmul b0 (ffloor (fdiv (fmul wd (potency d)) (q 100)))))
            else
              let* b1 := with_tnc c st (ap_det (potency d) ap det) in
              Ok (ffloor (ffloor (fmul b1 wd))) in
  Ok (finish_damage st d m e b).

(** Lines 249-256 / 302-307 *)
Definition dot_tnc (c : consts) (st : stats) (b : Q) : res Q :=
  if st_is_tank st then
    let* t := tnc_of c st in Ok (ffloor (fdiv (fmul b t) (q 1000)))
  else Ok b.

(** Lines 217-269 *)
Definition magical_dot_damage (c : consts) (d : damage_spec) (m : modifier) (st : stats) (e : effects2)
  : res Q :=
  let spd := fSpd c (st_speed st) in
  let ap := fAP c (party_main_stat st e) (st_is_tank st) in
  let wd := fWD c (st_wd st) (ps_job_mod st) in
  let det := det_dh_of c st d m e in
  let b0 := ffloor (fdiv (ffloor (fmul (potency d) wd)) (q 100)) in
  let b1 := ffloor (ffloor (fmul (ffloor (fmul b0 ap)) spd)) in
  let b2 := ffloor (fdiv (ffloor (fmul b1 det)) (q 1000)) in
  let* b3 := dot_tnc c st b2 in
  let b4 := ffloor (fdiv (ffloor (fdiv b3 (q 1000))) (q 100)) in
  Ok (finish_damage st d m e b4).

(** Lines 271-322 *)
Definition physical_dot_damage (c : consts) (d : damage_spec) (m : modifier) (st : stats) (e : effects2)
  : res Q :=
  let spd := fSpd c (st_speed st) in
  let ap := fAP c (party_main_stat st e) (st_is_tank st) in
  let wd := fWD c (st_wd st) (ps_job_mod st) in
  let det := det_dh_of c st d m e in
  let b0 := fdiv (ffloor (fdiv (fmul (fmul (potency d) ap) det) (q 100))) (q 1000) in
  let* b1 := dot_tnc c st b0 in
  let b2 := ffloor (fdiv (ffloor (fmul b1 spd)) (q 1000)) in
  let b3 := ffloor (fdiv (ffloor (fmul b2 wd)) (q 100)) in
  Ok (finish_damage st d m e b3).

(** Lines 324-386 *)
Definition pet_damage (c : consts) (d : damage_spec) (m : modifier) (st : stats) (e : effects2) : res Q :=
  let job_mod := match pet_job_mod_override d with Some j => j | None => ps_job_mod st end in
  let diff := fsub (ffloor (fdiv (fmul (q (c_main c)) (ps_job_mod st)) (q 100)))
                (ffloor (fdiv (fmul (q (c_main c)) job_mod) (q 100))) in
  let main := fmul (buffed_main_stat (fsub (st_main_stat st) diff) e) (pet_scalar d) in
  let ap := fAP c main false in
  let wd := fWD c (st_wd st) job_mod in
  let det := det_dh_of c st d m e in
  let* b1 := with_tnc c st (ap_det (potency d) ap det) in
  Ok (finish_damage st d m e (ffloor (ffloor (fmul b1 wd)))).

(** Lines 388-477 *)
Definition auto_damage (c : consts) (d : damage_spec) (m : modifier) (st : stats) (e : effects2) : res Q :=
  let* main := if uses_strength st then
                 let* s := of_option RuntimeError (st_healer_strength st) in
                 Ok (fmul s (party_bonus st))
               else Ok (party_main_stat st e) in
  let spd := if uses_sks (st_version st) (st_job st) then fSpd c (st_speed st) else q 1000 in
  let ap := fAP c main (st_is_tank st) in
  let auto := fAuto c (st_wd st) (st_weapon_delay st) (ps_job_mod st) in
  let det := det_dh_of c st d m e in
  let* b1 := with_tnc c st (ap_det (potency d) ap det) in
  let b2 := fdiv (ffloor (fmul b1 spd)) (q 10) in
  let b3 := ffloor (fdiv (ffloor (fmul b2 auto)) (q 100)) in
  Ok (finish_damage st d m e b3).

(** Lines 488-511 *)
Definition class_damage (c : consts) (d : damage_spec) (m : modifier) (st : stats) (e : effects2) : res Q :=
  match damage_class d with
  | DC_DIRECT => direct_damage c d m st e
  | DC_MAGICAL_DOT => magical_dot_damage c d m st e
  | DC_PHYSICAL_DOT => physical_dot_damage c d m st e
  | DC_AUTO => auto_damage c d m st e
  | DC_PET => pet_damage c d m st e
  | DC_UNKNOWN => Err RuntimeError
  end.

(** Lines 479-512; [None] is Python None. *)
Definition get_base_damage (s : skill) (m : modifier) (st : stats) (e : effects2) : res (option Q) :=
  let* sp := get_damage_spec s m in
  match sp with
  | None => Ok None
  | Some d =>
      if Qeq_bool (potency d) 0 then Ok (Some 0%Q)
      else
        let* c := get_consts (st_version st) (st_level st) in
        let* b := class_damage c d m st e in
        Ok (Some (qmax b 1))
  end.

(** ** damage_tracker.py *)

(** One row of the arrays of lines 8-18. *)
Record row := mkRow {
  r_base : Q; r_crit_rate : Q; r_crit_bonus : Q; r_dh_rate : Q; r_trait : Q; r_mult : Q;
  r_time : Z; r_potency : Q; r_cond : cond; r_effects : effects2; r_class : dclass
}.
Record tracker := mkTracker { dt_rows : list row; dt_finalized : bool }.
Definition dt_init : tracker := mkTracker [] false.
(** Lines 8-18: the arrays have 5000 entries. *)
Definition CAPACITY : Z := 5000.

(** Lines 25-54 *)
Definition dt_add (tr : tracker) (r : row) : res tracker :=
  if dt_finalized tr then Err RuntimeError
  else if CAPACITY <=? Z.of_nat (List.length (dt_rows tr)) then Err IndexError
  else Ok (mkTracker (dt_rows tr ++ [r])%list false).
(** Lines 56-68 *)
Definition dt_finalize (tr : tracker) : tracker := mkTracker (dt_rows tr) true.

(** The three uniform draws of lines 89, 92 and 102 for one cell. *)
Definition draws := (Q * Q * Q)%type.

(** [x * status] for a boolean status *)
Definition qbool (b : bool) : Q := if b then 1%Q else 0%Q.

(** Lines 72-112 for one cell: (damage, crit, direct hit). *)
Definition get_damage (base crit_bonus crit_rate dh_rate damage_mult trait range : Q) (u : draws)
  : Q * bool * bool :=
  let '(u0, u1, u2) := u in
  let low := fsub 1 (fdiv range (q 2)) in
  let t0 := ffloor (fmul base (fadd low (fmul range u0))) in
  let crit := Qle_bool u1 crit_rate in
  let t1 := fadd t0 (ffloor (fmul t0 (fmul crit_bonus (qbool crit)))) in
  let dh := Qle_bool u2 dh_rate in
  let t2 := fadd t1 (ffloor (fmul t1 (fmul DH_DAMAGE_MULT_BONUS (qbool dh)))) in
  let t3 := ffloor (fmul t2 trait) in
  let t4 := ffloor (fmul t3 damage_mult) in
  (t4, crit, dh).

(** One element of lines 208-233. *)
Record outcome := mkOutcome { o_label : string; o_low : Q; o_high : Q; o_prob : Q }.

(** Lines 121-198: [init] is floor(0.95*base) or floor(1.05*base). *)
Definition range_end (r : row) (init crit_rate dh_rate : Q) (u : draws) : Q :=
  let '(d, _, _) := get_damage init (r_crit_bonus r) crit_rate dh_rate (r_mult r) (r_trait r) 0 u in d.
Definition low_init (r : row) : Q := ffloor (fmul (dec 95 100) (r_base r)).
Definition high_init (r : row) : Q := ffloor (fmul (dec 105 100) (r_base r)).

(** Lines 124-233 for one row; [u i] are the draws of the i-th call of
    [__get_damage]. *)
Definition row_outcomes (r : row) (u : nat -> draws) : list outcome :=
  let c := r_crit_rate r in
  let d := r_dh_rate r in
  [ mkOutcome "No crit, no DH" (range_end r (low_init r) 0 0 (u 0%nat))
      (range_end r (high_init r) 0 0 (u 1%nat)) (fmul (fsub 1 c) (fsub 1 d));
    mkOutcome "Crit, no DH" (range_end r (low_init r) 1 0 (u 2%nat))
      (range_end r (high_init r) 1 0 (u 3%nat)) (fmul c (fsub 1 d));
    mkOutcome "No crit, DH" (range_end r (low_init r) 0 1 (u 4%nat))
      (range_end r (high_init r) 0 1 (u 5%nat)) (fmul (fsub 1 c) d);
    mkOutcome "Crit, DH" (range_end r (low_init r) 1 1 (u 6%nat))
      (range_end r (high_init r) 1 1 (u 7%nat)) (fmul c d) ].

Fixpoint mapi_from {A B} (f : nat -> A -> B) (i : nat) (l : list A) : list B :=
  match l with [] => [] | a :: l' => f i a :: mapi_from f (S i) l' end.

(** Lines 114-234; [u row call] are the draws. *)
Definition damage_ranges (tr : tracker) (u : nat -> nat -> draws) : res (list (list outcome)) :=
  if dt_finalized tr then Ok (mapi_from (fun i r => row_outcomes r (u i)) 0 (dt_rows tr))
  else Err RuntimeError.

(** Lines 236-250; [u row sample] are the draws.  0.1 is the default range. *)
Definition sample_cell (r : row) (u : draws) : Q * bool * bool :=
  get_damage (r_base r) (r_crit_bonus r) (r_crit_rate r) (r_dh_rate r) (r_mult r) (r_trait r)
    (dec 1 10) u.
Definition compute_damage (tr : tracker) (num_samples : nat) (u : nat -> nat -> draws)
  : res (list (list (Q * bool * bool))) :=
  if dt_finalized tr
  then Ok (mapi_from (fun i r => map (fun j => sample_cell r (u i j)) (seq 0 num_samples)) 0 (dt_rows tr))
  else Err RuntimeError.

(** ** damage_simulator.py *)

(** Lines 53-95: one instance. *)
Definition row_of (st : stats) (x : instance) : res row :=
  let e := di_effects x in
  let* b := get_base_damage (di_skill x) (di_modifier x) st e in
  let* b := of_option AssertionError b in
  let* sp := get_damage_spec (di_skill x) (di_modifier x) in
  let* d := of_option AttributeError sp in
  let* (dh, crit, bonus) := crit_rates_and_bonuses st d (di_modifier x) e in
  let trait := match trait_damage_mult_override d with
               | Some t => t
               | None => ps_trait_damage_mult st
               end in
  Ok (mkRow b crit bonus dh trait (compute_damage_mult e) (di_time x) (potency d)
        (sm_cond (di_modifier x)) e (damage_class d)).
Definition compile_instance (st : stats) (tr : tracker) (x : instance) : res tracker :=
  let* r := row_of st x in dt_add tr r.

(** Lines 36-38 and 50-97: the sorted instances and the finalized tracker. *)
Record simulator := mkSimulator { ds_instances : list instance; ds_tracker : tracker; ds_stats : stats }.
Definition ds_init (st : stats) (l : list instance) : res simulator :=
  let sorted := sort_by di_time l in
  let* tr := foldM (compile_instance st) sorted dt_init in
  Ok (mkSimulator sorted (dt_finalize tr) st).

(** Exact sums; see DESIGN.md: the means and variances below are computed by the
    code in doubles, here exactly from the (double) ranges and probabilities. *)
Definition qsum (l : list Q) : Q := fold_right Qplus 0%Q l.

(** Lines 99-104, in seconds *)
Definition fight_time (l : list instance) : Q :=
  match l with
  | [] => 0%Q
  | x :: _ => fdiv (q (di_time (last l x) - di_time x)) (q 1000)
  end.

(** Lines 196-224 for one instance *)
Definition o_mean (o : outcome) : Q := ((o_low o + o_high o) / 2)%Q.
Definition o_diff (o : outcome) : Q := (o_high o - o_low o)%Q.
Definition expected_of (l : list outcome) : Q := qsum (map (fun o => o_prob o * o_mean o)%Q l).
Definition variance_of (l : list outcome) : Q :=
  (qsum (map (fun o => o_prob o * (o_diff o * o_diff o)) l) / 12
   + (qsum (map (fun o => o_prob o * (o_mean o * o_mean o)) l)
      - expected_of l * expected_of l))%Q.

(** Lines 107, 217: [np.sum(.., axis=1)] needs a two-dimensional array, which
    [np.asarray([])] is not (AxisError, a ValueError). *)
Definition expected_and_variance (sim : simulator) (u : nat -> nat -> draws) : res (list Q * list Q) :=
  let* rs := damage_ranges (ds_tracker sim) u in
  match rs with
  | [] => Err ValueError
  | _ => Ok (map expected_of rs, map variance_of rs)
  end.

(** Lines 118-126 and 163-164: total damage per sample. *)
Definition sampled_damage (m : list (list (Q * bool * bool))) (num_samples : nat) : list Q :=
  map (fun j => qsum (map (fun cells => match nth_error cells j with
                                        | Some (d, _, _) => d
                                        | None => 0%Q
                                        end) m)) (seq 0 num_samples).

(** DPS: [None] is +inf, lines 122-126 *)
Definition sampled_dps (fight : Q) (l : list Q) : list (option Q) :=
  map (fun d => if qltb 0 fight then Some (d / fight)%Q else None) l.

(** What a constructed DamageSimulator reports: lines 44-126. *)
Record report := mkReport {
  rp_expected : list Q; rp_variance : list Q; rp_damage : list Q; rp_dps : list (option Q);
  rp_ids : list Z; rp_targets : list string
}.
Definition run_simulator (sim : simulator) (num_samples : nat) (u_range u_sample : nat -> nat -> draws)
  : res report :=
  let* (ex, va) := expected_and_variance sim u_range in
  let* m := compute_damage (ds_tracker sim) num_samples u_sample in
  let tot := sampled_damage m num_samples in
  Ok (mkReport ex va tot (sampled_dps (fight_time (ds_instances sim)) tot)
        (map di_id (ds_instances sim)) (map di_target (ds_instances sim))).

(** Lines 238-266 and 128-152: per-skill damage with snapshot times traced back
    through event ids in the queue of a rotation builder. *)
Definition snapshot_table (evs : list event) : zdict (Z * string) :=
  fold_left (fun d e => zset (ev_id e) (ev_primary e, sk_name (ev_skill e)) d) evs [].
Definition trace_back (tbl : zdict (Z * string)) (x : instance) : res Z :=
  match zget (di_id x) tbl with
  | None => Err AssertionError
  | Some (t, name) => if String.eqb (sk_name (di_skill x)) name then Ok t else Err AssertionError
  end.
Definition add_damage_snapshots (sim : simulator) (b : builder) : res (list (instance * Z)) :=
  let* b' := get_skill_timing b in
  let tbl := snapshot_table (get_q (b_queue b')) in
  mapM (fun x => let* t := trace_back tbl x in Ok (x, t)) (ds_instances sim).
