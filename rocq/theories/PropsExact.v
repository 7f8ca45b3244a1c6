(** * C83-C85: stats and damage in whole numbers *)

From Coq Require Import ZArith QArith Qround List String Bool Lia Lqa.
From Verif Require Import Base BaseFacts Float FloatFacts Strings Types Lookup StatusEffect Stats DamageBuild Damage SpecHit Fixtures HitProps
  SpecExact SpecGame ExactProps ExactCase ExactRoll ExactRollCase.
Import ListNotations.
Open Scope string_scope.
Open Scope Z_scope.

(** C83 *)
Theorem C83_jobs h : h_version h <> "test" ->
  ((exists st, stats_of (gear_of h) = Ok st) <-> exists t md r delay, on_roster h t md r delay).
Proof. exact (sheet_accepted h). Qed.
Print Assumptions C83_jobs.

Theorem C83_derived h st t md r delay : stats_of (gear_of h) = Ok st -> on_roster h t md r delay -> sensible h ->
  (ps_crit_rate st == thousandths (crit_steps t h + 50))%Q /\ (ps_crit_bonus st == thousandths (crit_steps t h + 400))%Q
  /\ (ps_dh_rate st == thousandths (dh_steps t h))%Q /\ (ps_trait_damage_mult st == dec (trait_percent r) 100)%Q
  /\ (st_weapon_delay st == dec delay 100)%Q
  /\ (loads (h_version h) (h_level h) -> (ps_trait_haste st == dec (haste_percent h) 100)%Q /\ (ps_trait_auto st == dec (haste_percent h) 100)%Q).
Proof. exact (sheet_derived h st t md r delay). Qed.
Print Assumptions C83_derived.

Theorem C83_times v l t ms speed k : v <> "test" -> table_at l = Some t -> 0 <= ms <= 1000000 -> 0 <= speed <= 15000 ->
  k = ms * (1000 - 130 * (speed - base_sub t) / base_div t) / 10000 ->
  exists x, get_time_using_speed_stat ms (q speed) v l = Ok x /\ 10 * k - 1 <= x <= 10 * k.
Proof. exact (time_exact v l t ms speed k). Qed.
Print Assumptions C83_times.

Theorem C83_short_refuted : exists v l t ms speed k, v <> "test" /\ table_at l = Some t
  /\ k = ms * (1000 - 130 * (speed - base_sub t) / base_div t) / 10000
  /\ get_time_using_speed_stat ms (q speed) v l = Ok (10 * k - 1).
Proof. exact time_short. Qed.
Print Assumptions C83_short_refuted.

Example C83_example : on_roster ex_sam ex_table 112 Melee 264 /\ sensible ex_sam /\ loads "7.0" 100
  /\ stats_of (gear_of ex_sam) = Ok (gx_stats (gear_of ex_sam))
  /\ crit_steps ex_table ex_sam + 50 = 199 /\ dh_steps ex_table ex_sam = 213
  /\ get_time_using_speed_stat 2500 (q 1000) "7.0" 100 = Ok 2430
  /\ 2500 * (1000 - 130 * (1000 - 420) / 2780) / 10000 = 243.
Proof. exact stats_case. Qed.

(** C84 *)
Theorem C84_hit_partial h st t md r delay s m e d p pm scale a a' dh :
  stats_of (gear_of h) = Ok st -> on_roster h t md r delay -> sensible h ->
  get_damage_spec s m = Ok (Some d) -> whole_spec md d p pm scale -> damage_class d <> DC_UNKNOWN ->
  adds_points (fst e) a -> adds_points (snd e) a' -> 0 <= a -> 0 <= a' -> fits (h_main h + (a + a')) ->
  (dh = true <-> In F_YES (dh_sources d m e)) ->
  exists b x, hit_of cut t r md h (a + a') dh p (damage_class d) delay pm scale b
    /\ get_base_damage s m st e = Ok (Some x) /\ (x == q (Z.max b 1))%Q.
Proof. exact (hit_exact h st t md r delay s m e d p pm scale a a' dh). Qed.
Print Assumptions C84_hit_partial.

Theorem C84_never_more h t md r delay a dh p c pm scale b b' :
  on_roster h t md r delay -> sensible h -> 0 <= p -> 0 <= pm -> c <> DC_AUTO ->
  hit_of cut t r md h a dh p c delay pm scale b -> hit_of whole t r md h a dh p c delay pm scale b' -> b <= b'.
Proof. exact (never_more h t md r delay a dh p c pm scale b b'). Qed.
Print Assumptions C84_never_more.

Theorem C84_whole_refuted : exists h st t md r delay s d p b,
  stats_of (gear_of h) = Ok st /\ on_roster h t md r delay /\ sensible h
  /\ get_damage_spec s default_modifier = Ok (Some d) /\ whole_spec md d p md 100 /\ damage_class d = DC_DIRECT
  /\ hit_of whole t r md h 0 false p DC_DIRECT delay md 100 b
  /\ get_base_damage s default_modifier st (no_effects, no_effects) = Ok (Some (inject_Z (b - 1))).
Proof. exact hit_short. Qed.
Print Assumptions C84_whole_refuted.

Theorem C84_auto_refuted : exists h st t md r delay s d p b,
  stats_of (gear_of h) = Ok st /\ on_roster h t md r delay /\ sensible h
  /\ get_damage_spec s default_modifier = Ok (Some d) /\ whole_spec md d p md 100 /\ damage_class d = DC_AUTO
  /\ hit_of whole t r md h 0 false p DC_AUTO delay md 100 b
  /\ exists x, get_base_damage s default_modifier st (no_effects, no_effects) = Ok (Some x) /\ (x < inject_Z (b - 1))%Q.
Proof. exact auto_short. Qed.
Print Assumptions C84_auto_refuted.

Example C84_example : on_roster ex_sam ex_table 112 Melee 264 /\ sensible ex_sam
  /\ whole_spec 112 (fx_damage 300) 300 112 100 /\ adds_points no_effects 0 /\ fits (h_main ex_sam + (0 + 0))
  /\ ~ In F_YES (dh_sources (fx_damage 300) default_modifier (no_effects, no_effects)).
Proof. exact hit_case. Qed.

(** C85 *)
Theorem C85_ranges h st t md r delay l sim u rs i x os b trait ps ps' :
  stats_of (gear_of h) = Ok st -> on_roster h t md r delay -> sensible h -> fair u ->
  ds_init st l = Ok sim -> damage_ranges (ds_tracker sim) u = Ok rs ->
  nth_error (ds_instances sim) i = Some x -> nth_error rs i = Some os -> plain_hit st r x b trait ps ps' ->
  forall o, In o os -> exists crit dh lo hi, o_label o = label_of crit dh /\ (o_low o == q lo)%Q /\ (o_high o == q hi)%Q
    /\ outcome_of (crit_steps t h + 400) trait (ps ++ ps')%list crit dh (b * 95 / 100) lo
    /\ outcome_of (crit_steps t h + 400) trait (ps ++ ps')%list crit dh (b * 105 / 100) hi.
Proof. exact (range_exact h st t md r delay l sim u rs i x os b trait ps ps'). Qed.
Print Assumptions C85_ranges.

Theorem C85_sample h st t md r delay l sim v n m i x cells j d crit dh b trait ps ps' :
  stats_of (gear_of h) = Ok st -> on_roster h t md r delay -> sensible h -> drawn (v i j) ->
  ds_init st l = Ok sim -> compute_damage (ds_tracker sim) n v = Ok m ->
  nth_error (ds_instances sim) i = Some x -> nth_error m i = Some cells -> nth_error cells j = Some (d, crit, dh) ->
  plain_hit st r x b trait ps ps' ->
  exists roll out, let y := (inject_Z b * ((95 # 100) + (1 # 10) * fst (fst (v i j))))%Q in
    (y - 1 - (1 # 1000000) < inject_Z roll <= y + (1 # 1000000))%Q
    /\ outcome_of (crit_steps t h + 400) trait (ps ++ ps')%list crit dh roll out /\ (d == q out)%Q.
Proof. exact (sample_exact h st t md r delay l sim v n m i x cells j d crit dh b trait ps ps'). Qed.
Print Assumptions C85_sample.

(** Under a buff of 15 percent a hit may lose one. *)
Theorem C85_whole_refuted : exists h st t md r delay l sim u rs x os o b lo,
  stats_of (gear_of h) = Ok st /\ on_roster h t md r delay /\ sensible h /\ fair u
  /\ ds_init st l = Ok sim /\ damage_ranges (ds_tracker sim) u = Ok rs
  /\ nth_error (ds_instances sim) 0 = Some x /\ nth_error rs 0 = Some os /\ plain_hit st r x b 100 [115] []
  /\ In o os /\ o_label o = label_of false false /\ (o_low o == q lo)%Q /\ lo = b * 95 / 100 * 115 / 100 - 1.
Proof. exact roll_short. Qed.
Print Assumptions C85_whole_refuted.

Example C85_example : on_roster ex_sam ex_table 112 Melee 264 /\ sensible ex_sam /\ fair half_draws
  /\ plain_hit ex_stats Melee (ex_inst 300 [110; 103] [105]) 15131 100 [110; 103] [105]
  /\ match damage_ranges (ds_tracker (ex_sim [ex_inst 300 [110; 103] [105]])) half_draws with
     | Ok [os] => map (fun o => (Qfloor (o_low o), Qfloor (o_high o))) os
         = [(17100, 18899); (26487, 29274); (21374, 23624); (33109, 36593)]
     | _ => False
     end.
Proof. exact roll_case. Qed.
