(** * C34-C41: damage numbers, simulation and kill times *)

From Coq Require Import ZArith QArith Qround Qabs List String Bool Lia Lqa Permutation Sorted.
From Verif Require Import Base BaseFacts Float FloatFacts Strings Types Lookup StatusEffect Stats Library Events Rotation DamageBuild Damage KillTime
  SpecHit SpecKill HitFacts HitOutcomes SimFacts KillFacts Fixtures RunCounter HitProps.
Import ListNotations.
Open Scope string_scope.
Open Scope Z_scope.

(** C34 *)
Theorem C34_none s m st e : get_base_damage s m st e = Ok None <-> get_damage_spec s m = Ok None.
Proof. exact (base_damage_none s m st e). Qed.
Print Assumptions C34_none.

Theorem C34_value s m st e d b : get_damage_spec s m = Ok (Some d) -> get_base_damage s m st e = Ok (Some b) ->
  (b == 0 <-> potency d == 0)%Q /\ (~ potency d == 0 -> 1 <= b)%Q.
Proof. exact (base_damage_some s m st e d b). Qed.
Print Assumptions C34_value.

Theorem C34_defined g st s m e d : stats_of g = Ok st -> get_damage_spec s m = Ok (Some d) -> damage_class d <> DC_UNKNOWN ->
  (st_is_tank st = true -> st_tenacity st <> None) -> (uses_strength st = true -> damage_class d = DC_AUTO -> st_healer_strength st <> None) ->
  exists b, get_base_damage s m st e = Ok (Some b).
Proof. exact (base_damage_total g st s m e d). Qed.
Print Assumptions C34_defined.

Example C34_example : get_base_damage fx_hit default_modifier (gx_stats (gx 3330)) (no_effects, no_effects) = Ok (Some (inject_Z 13780))
  /\ get_base_damage fx_buff default_modifier (gx_stats (gx 3330)) (no_effects, no_effects) = Ok None
  /\ get_base_damage (fx_skill "Nothing" (COne (fx_damage 0)) (fx_timing 0 0 0) true []) default_modifier (gx_stats (gx 3330)) (no_effects, no_effects)
     = Ok (Some 0%Q)
  /\ get_base_damage (fx_skill "Tiny" (COne (fx_damage_class 1 DC_PHYSICAL_DOT)) (fx_timing 0 0 0) true []) default_modifier
       (gx_stats (mkGear 0 None 0 0 0 0 0 "WAR" "7.0" (Some 0%Q) 0 None 100)) (no_effects, no_effects) = Ok (Some 1%Q).
Proof. vm_compute. repeat split. Qed.

(** C35 *)
Theorem C35_more_is_never_worse g g' st s s' m e d d' b :
  gear_nonneg g -> better g g' -> stats_of g = Ok st ->
  get_damage_spec s m = Ok (Some d) -> get_damage_spec s' m = Ok (Some d') -> spec_nonneg d -> stronger d d' ->
  effects_nonneg (fst e) -> effects_nonneg (snd e) ->
  get_base_damage s m st e = Ok (Some b) ->
  exists st', stats_of g' = Ok st'
    /\ (forall b', get_base_damage s' m st' e = Ok (Some b') -> (b <= b')%Q)
    /\ (~ (potency d == 0)%Q -> exists b', get_base_damage s' m st' e = Ok (Some b')).
Proof. exact (base_damage_rises g g' st s s' m e d d' b). Qed.
Print Assumptions C35_more_is_never_worse.

Example C35_example : gear_nonneg (gx 3330) /\ better (gx 3330) (gx 3331) /\ spec_nonneg (fx_damage 500) /\ stronger (fx_damage 500) (fx_damage 501)
  /\ effects_nonneg no_effects
  /\ get_base_damage fx_hit default_modifier (gx_stats (gx 3331)) (no_effects, no_effects) = Ok (Some (inject_Z 13789)).
Proof.
  split; [repeat split; vm_compute; discriminate|]. split; [repeat split; vm_compute; discriminate|].
  split; [repeat split; vm_compute; discriminate|]. split; [repeat split; vm_compute; discriminate|].
  split; [repeat split; vm_compute; discriminate|]. vm_compute. reflexivity.
Qed.

(** C36 *)
Theorem C36_rates st d m e dh crit bonus : crit_rates_and_bonuses st d m e = Ok (dh, crit, bonus) <->
  rate_is (ps_dh_rate st) (ef_dh_rate_add (fst e)) (ef_dh_rate_add (snd e)) (dh_sources d m e) dh
  /\ rate_is (ps_crit_rate st) (ef_crit_rate_add (fst e)) (ef_crit_rate_add (snd e)) (crit_sources d m e) crit
  /\ bonus = ps_crit_bonus st.
Proof. exact (rates_ok st d m e dh crit bonus). Qed.
Print Assumptions C36_rates.

Theorem C36_contradiction st d m e er : crit_rates_and_bonuses st d m e = Err er <->
  er = RuntimeError /\ (contradictory (dh_sources d m e) \/ contradictory (crit_sources d m e)).
Proof. exact (rates_err st d m e er). Qed.
Print Assumptions C36_contradiction.

(** The base damage is that without rate additions, plus the two bonuses. *)
Theorem C36_bonus c d m st e x : class_damage c d m st e = Ok x ->
  exists b xd xc,
    class_damage c (plain d) m st (no_rates (fst e), no_rates (snd e)) = Ok b
    /\ bonus_is (dec 25 100) (ef_dh_rate_add (fst e)) (ef_dh_rate_add (snd e)) (dh_sources d m e) xd
    /\ bonus_is (ps_crit_bonus st) (ef_crit_rate_add (fst e)) (ef_crit_rate_add (snd e)) (crit_sources d m e) xc
    /\ (x == fmul (fadd b (fadd (ffloor (fmul b xd)) (ffloor (fmul b xc)))) (single_damage_mult d))%Q.
Proof. exact (forced_bonus c d m st e x). Qed.
Print Assumptions C36_bonus.

Example C36_example : let st := gx_stats (gx 3330) in
  crit_rates_and_bonuses st (fx_damage 500) default_modifier (forced_effects F_YES, no_effects) = Ok (ps_dh_rate st, 1%Q, ps_crit_bonus st)
  /\ crit_rates_and_bonuses st (fx_damage 500) default_modifier (forced_effects F_NO, no_effects) = Ok (ps_dh_rate st, 0%Q, ps_crit_bonus st)
  /\ crit_rates_and_bonuses st (fx_damage 500) default_modifier (forced_effects F_YES, forced_effects F_NO) = Err RuntimeError
  /\ crit_rates_and_bonuses st (fx_damage 500) default_modifier (forced_effects F_DEFAULT, no_effects)
     = Ok (ps_dh_rate st, fadd (ps_crit_rate st) (dec 10 100), ps_crit_bonus st)
  /\ get_base_damage fx_hit default_modifier st (forced_effects F_YES, no_effects) = Ok (Some (inject_Z (13780 + 764))).
Proof. vm_compute. repeat split. Qed.

(** C37 *)
Theorem C37_distribution st l sim u rs i x os : ds_init st l = Ok sim -> damage_ranges (ds_tracker sim) u = Ok rs ->
  nth_error (ds_instances sim) i = Some x -> nth_error rs i = Some os ->
  exists d dh crit, get_damage_spec (di_skill x) (di_modifier x) = Ok (Some d)
    /\ crit_rates_and_bonuses st d (di_modifier x) (di_effects x) = Ok (dh, crit, ps_crit_bonus st)
    /\ map o_label os = ["No crit, no DH"; "Crit, no DH"; "No crit, DH"; "Crit, DH"]
    /\ (Qabs (total_prob os - 1) <= pow2 (-51) * ((Qabs crit + Qabs (1 - crit)) * (Qabs dh + Qabs (1 - dh))))%Q
    /\ (in_unit crit -> in_unit dh ->
        (Qabs (total_prob os - 1) <= pow2 (-51))%Q /\ forall o, In o os -> in_unit (o_prob o))
    /\ (~ (in_unit crit /\ in_unit dh) -> exists o, In o os /\ (o_prob o < 0)%Q).
Proof. exact (distribution st l sim u rs i x os). Qed.
Print Assumptions C37_distribution.

(** Which outcome has which probability. *)
Theorem C37_each st l sim u rs i x os : ds_init st l = Ok sim -> damage_ranges (ds_tracker sim) u = Ok rs ->
  nth_error (ds_instances sim) i = Some x -> nth_error rs i = Some os ->
  exists d dh crit, get_damage_spec (di_skill x) (di_modifier x) = Ok (Some d)
    /\ crit_rates_and_bonuses st d (di_modifier x) (di_effects x) = Ok (dh, crit, ps_crit_bonus st)
    /\ forall o is_crit is_dh, In o os -> o_label o = label_of is_crit is_dh ->
       let p := ((if is_crit then crit else 1 - crit) * (if is_dh then dh else 1 - dh))%Q in
       (Qabs (o_prob o - p) <= pow2 (-51) * Qabs p)%Q.
Proof. exact (each_probability st l sim u rs i x os). Qed.
Print Assumptions C37_each.

(** Rounding is real: *)
Theorem C37_exactly_one_refuted : exists st l sim u rs os, ds_init st l = Ok sim /\ damage_ranges (ds_tracker sim) u = Ok rs /\ fair u
  /\ In os rs /\ ~ (total_prob os == 1)%Q.
Proof. exact not_exactly_one. Qed.
Print Assumptions C37_exactly_one_refuted.

Example C37_example : ds_init (gx_stats (gx 3330)) gx_hits = Ok gx_sim /\ List.length gx_rows = 2%nat
  /\ Forall (fun r => in_unit (r_crit_rate r) /\ in_unit (r_dh_rate r)) gx_rows.
Proof.
  split; [vm_compute; reflexivity|]. split; [vm_compute; reflexivity|].
  repeat constructor; vm_compute; discriminate.
Qed.

(** C38 *)
Theorem C38_sample_in_range g st l sim u v rs n m i x os cells j d crit dh :
  stats_of g = Ok st -> (0 <= g_crit g)%Q -> Forall mults_nonneg l -> fair u -> (forall i j, drawn (v i j)) ->
  ds_init st l = Ok sim -> damage_ranges (ds_tracker sim) u = Ok rs -> compute_damage (ds_tracker sim) n v = Ok m ->
  nth_error (ds_instances sim) i = Some x -> nth_error rs i = Some os -> nth_error m i = Some cells -> nth_error cells j = Some (d, crit, dh) ->
  (exists o, In o os /\ o_label o = label_of crit dh)
  /\ forall o, In o os -> o_label o = label_of crit dh -> (o_low o <= d <= o_high o)%Q.
Proof. exact (sample_in_range g st l sim u v rs n m i x os cells j d crit dh). Qed.
Print Assumptions C38_sample_in_range.

(** The drawn outcome: the second draw decides the crit and the third the direct hit,
    each against its own rate. *)
Theorem C38_outcome_drawn st l sim v n m i x cells j d crit dh :
  ds_init st l = Ok sim -> compute_damage (ds_tracker sim) n v = Ok m ->
  nth_error (ds_instances sim) i = Some x -> nth_error m i = Some cells -> nth_error cells j = Some (d, crit, dh) ->
  exists sp c h, get_damage_spec (di_skill x) (di_modifier x) = Ok (Some sp)
    /\ crit_rates_and_bonuses st sp (di_modifier x) (di_effects x) = Ok (h, c, ps_crit_bonus st)
    /\ (crit = true <-> (snd (fst (v i j)) <= c)%Q) /\ (dh = true <-> (snd (v i j) <= h)%Q).
Proof. exact (sample_drawn st l sim v n m i x cells j d crit dh). Qed.
Print Assumptions C38_outcome_drawn.

(** A draw of exactly 0 counts as a crit even at rate 0, also in the reported range. *)
Theorem C38_zero_draw_refuted : exists g st l sim u v rs m os cells d crit dh o,
  stats_of g = Ok st /\ (0 <= g_crit g)%Q /\ Forall mults_nonneg l /\ (forall i k, drawn (u i k)) /\ (forall i j, drawn (v i j))
  /\ ds_init st l = Ok sim /\ damage_ranges (ds_tracker sim) u = Ok rs /\ compute_damage (ds_tracker sim) 1 v = Ok m
  /\ nth_error rs 0 = Some os /\ nth_error m 0 = Some cells /\ nth_error cells 0 = Some (d, crit, dh)
  /\ In o os /\ o_label o = label_of crit dh /\ ~ (o_low o <= d)%Q.
Proof. exact zero_draw_escapes. Qed.
Print Assumptions C38_zero_draw_refuted.

Example C38_example : fair half_draws /\ Forall mults_nonneg gx_hits
  /\ map (fun r => map (fun o => (o_label o, Qfloor (o_low o), Qfloor (o_high o))) (row_outcomes r (half_draws 0))) gx_rows
     = [[("No crit, no DH", 13091, 14469); ("Crit, no DH", 20356, 22499); ("No crit, DH", 16363, 18086); ("Crit, DH", 25445, 28123)];
        [("No crit, no DH", 2617, 2892); ("Crit, no DH", 4069, 4497); ("No crit, DH", 3271, 3615); ("Crit, DH", 5086, 5621)]]
  /\ map (fun r => sample_cell r (half_draws 0 0)) gx_rows = [(inject_Z 13780, false, false); (inject_Z 2755, false, false)].
Proof.
  split; [intros i k; cbn; lra|]. split.
  { repeat constructor; try (vm_compute; discriminate); intros d [= <-]; exact I. }
  vm_compute. split; reflexivity.
Qed.

(** C39 *)
Theorem C39_expected_in_range g st l sim u ex va i x r xe xv :
  stats_of g = Ok st -> (0 <= g_crit g)%Q -> Forall mults_nonneg l -> fair u ->
  ds_init st l = Ok sim -> expected_and_variance sim u = Ok (ex, va) ->
  nth_error (ds_instances sim) i = Some x -> nth_error (dt_rows (ds_tracker sim)) i = Some r ->
  in_unit (r_crit_rate r) -> in_unit (r_dh_rate r) ->
  nth_error ex i = Some xe -> nth_error va i = Some xv ->
  exists rs os, damage_ranges (ds_tracker sim) u = Ok rs /\ nth_error rs i = Some os
    /\ (forall lo hi, (forall o, In o os -> 0 <= lo <= o_low o /\ o_high o <= hi)%Q ->
        (lo * (1 - pow2 (-51)) <= xe <= hi * (1 + pow2 (-51)))%Q)
    /\ (- pow2 (-51) * (xe * xe) <= xv)%Q.
Proof. exact (expected_in_range g st l sim u ex va i x r xe xv). Qed.
Print Assumptions C39_expected_in_range.

(** The reported numbers: an outcome is drawn by its probability, then a number of its range uniformly. *)
Theorem C39_moments sim u ex va i os xe xv rs : expected_and_variance sim u = Ok (ex, va) -> damage_ranges (ds_tracker sim) u = Ok rs ->
  nth_error rs i = Some os -> nth_error ex i = Some xe -> nth_error va i = Some xv ->
  let mean o := ((o_low o + o_high o) * (1 # 2))%Q in let width o := (o_high o - o_low o)%Q in
  (xe == sum_over (fun o => o_prob o * mean o) os)%Q
  /\ (xv == sum_over (fun o => o_prob o * (mean o * mean o + width o * width o * (1 # 12))) os - xe * xe)%Q.
Proof. exact (moments sim u ex va i os xe xv rs). Qed.
Print Assumptions C39_moments.

Example C39_example : match expected_and_variance gx_sim half_draws with
  | Ok (ex, va) => map Qfloor ex = [15739; 3146] /\ map Qfloor va = [11642507; 465064]
  | Err _ => False
  end.
Proof. vm_compute. split; reflexivity. Qed.

(** C40 *)
Theorem C40_kill_time hp rots n argsort ks : sorts argsort -> estimate_kill_time hp rots n argsort = Ok ks ->
  exists parts, Forall2 (fun bu p => rotation_rows n (fst bu) (snd bu) = Ok p) rots parts
    /\ (cells_nonneg (List.concat (map snd parts)) ->
        exists deaths, fates hp (List.concat (map snd parts)) n deaths /\ ks = reported deaths).
Proof. exact (kill_time hp rots n argsort ks). Qed.
Print Assumptions C40_kill_time.

Theorem C40_damage_not_negative n rots parts : Forall2 (fun bu p => rotation_rows n (fst bu) (snd bu) = Ok p) rots parts ->
  Forall (fun bu => (exists g, stats_of g = Ok (b_stats (fst bu)) /\ (0 <= g_crit g)%Q) /\ hits_nonneg (fst bu) /\ draws_ok (snd bu)) rots ->
  cells_nonneg (List.concat (map snd parts)).
Proof. exact (kill_cells_nonneg n rots parts). Qed.
Print Assumptions C40_damage_not_negative.

Theorem C40_one_per_sample hp rots n argsort ks : estimate_kill_time hp rots n argsort = Ok ks -> List.length ks = n.
Proof. exact (estimate_length hp rots n argsort ks). Qed.
Print Assumptions C40_one_per_sample.

Theorem C40_more_hp hp hp' rots n argsort ks ks' : sorts argsort -> (hp <= hp')%Q ->
  Forall (fun bu => (exists g, stats_of g = Ok (b_stats (fst bu)) /\ (0 <= g_crit g)%Q) /\ hits_nonneg (fst bu) /\ draws_ok (snd bu)) rots ->
  estimate_kill_time hp rots n argsort = Ok ks -> estimate_kill_time hp' rots n argsort = Ok ks' ->
  exists deaths deaths', ks = reported deaths /\ ks' = reported deaths' /\ Forall2 not_earlier deaths deaths'.
Proof. exact (more_hp hp hp' rots n argsort ks ks'). Qed.
Print Assumptions C40_more_hp.

Theorem C40_fates_unique hp rows n deaths deaths' : fates hp rows n deaths -> fates hp rows n deaths' -> deaths = deaths'.
Proof. exact (fates_unique hp rows n deaths deaths'). Qed.
Print Assumptions C40_fates_unique.

Example C40_example : sorts stable_argsort
  /\ Forall (fun bu => (exists g, stats_of g = Ok (b_stats (fst bu)) /\ (0 <= g_crit g)%Q) /\ hits_nonneg (fst bu) /\ draws_ok (snd bu))
       [(kx_rotation "Hit", mkDraws half_draws half_draws (fun _ _ => (1 # 2)%Q))]
  /\ estimate_kill_time (inject_Z 20000) [(kx_rotation "Hit", kx_draws); (kx_rotation "Quick", kx_draws)] 2 stable_argsort
     = Ok [Some (dec 115 100); Some (dec 115 100)]
  /\ estimate_kill_time (inject_Z 42500) [(kx_rotation "Hit", kx_draws); (kx_rotation "Quick", kx_draws)] 2 stable_argsort
     = Ok [Some (dec 359 100); Some (dec 294 100)]
  /\ estimate_kill_time (inject_Z 68000) [(kx_rotation "Hit", kx_draws); (kx_rotation "Quick", kx_draws)] 2 stable_argsort
     = Ok [Some (dec 538 100); None].
Proof.
  split; [exact stable_argsort_sorts|]. split.
  { constructor; [|constructor]. split; [exists fx_gear; split; [vm_compute; reflexivity|vm_compute; discriminate]|].
    split; [apply hits_checked; vm_compute; reflexivity|]. split; intros i j; cbn; lra. }
  repeat split; vm_compute; reflexivity.
Qed.

(** C41 *)
Theorem C41_fits_partial g st l : stats_of g = Ok st -> Forall (computable st) l -> l <> [] -> Z.of_nat (List.length l) <= 5000 ->
  exists sim, ds_init st l = Ok sim /\ forall n u v, exists rp, run_simulator sim n u v = Ok rp
    /\ List.length (rp_expected rp) = List.length l /\ List.length (rp_variance rp) = List.length l
    /\ List.length (rp_damage rp) = n /\ List.length (rp_dps rp) = n.
Proof. exact (fits g st l). Qed.
Print Assumptions C41_fits_partial.

Theorem C41_overflow g st l : stats_of g = Ok st -> Forall (computable st) l -> 5000 < Z.of_nat (List.length l) ->
  ds_init st l = Err IndexError.
Proof. exact (init_overflows g st l). Qed.
Print Assumptions C41_overflow.

Theorem C41_any_number_refuted : exists g st l, stats_of g = Ok st /\ Forall (computable st) l /\ ds_init st l = Err IndexError.
Proof. exact too_many. Qed.
Print Assumptions C41_any_number_refuted.

Theorem C41_empty_refuted st sim n u v : ds_init st [] = Ok sim -> run_simulator sim n u v = Err ValueError.
Proof. exact (run_empty st sim n u v). Qed.
Print Assumptions C41_empty_refuted.

Example C41_example : stats_of (gx 3330) = Ok (gx_stats (gx 3330)) /\ Forall (computable (gx_stats (gx 3330))) [gx_inst 500 fx_hit; gx_inst 900 fx_hit]
  /\ match run_simulator gx_sim 1 half_draws half_draws with Ok rp => rp_damage rp = [inject_Z (13780 + 2755)] | Err _ => False end.
Proof.
  split; [exact gx_stats_ok|]. split; [repeat constructor; apply gx_computable|]. vm_compute. reflexivity.
Qed.
