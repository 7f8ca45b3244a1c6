(** * Damage in whole numbers: cases (C83, C84) *)

From Coq Require Import ZArith QArith Qround List String Bool Lia Lqa.
From Verif Require Import Base BaseFacts Float FloatFacts Strings Types Lookup StatusEffect Stats DamageBuild Damage SpecHit Fixtures HitProps
  SpecExact SpecGame.
Import ListNotations.
Open Scope string_scope.
Open Scope Z_scope.

Definition ex_table : table := mkTable 440 420 2780 237 190 112.
Definition ex_sam : sheet := mkSheet 146 None 4525 1800 1500 2500 420 420 5 400 "SAM" "7.0" 100.
Definition ex_war : sheet := mkSheet 129 None 4525 1800 1500 2500 420 900 5 400 "WAR" "7.0" 100.
Definition ex_hit : skill := fx_skill "Cut" (COne (fx_damage 300)) (fx_timing 0 0 0) true [].
Definition ex_auto : skill := fx_skill "Swing" (COne (fx_damage_class 90 DC_AUTO)) (fx_timing 0 0 0) true [].

Ltac numbers := unfold sensible, fits; cbn; lia.

Lemma time_short : exists v l t ms speed k, v <> "test" /\ table_at l = Some t
  /\ k = ms * (1000 - 130 * (speed - base_sub t) / base_div t) / 10000
  /\ get_time_using_speed_stat ms (q speed) v l = Ok (10 * k - 1).
Proof.
  exists "7.0", 90, (mkTable 390 400 1900 195 156 100), 2500, 3230, 201. split; [discriminate|]. split; [reflexivity|].
  split; vm_compute; reflexivity.
Qed.
Lemma sam_on_roster : on_roster ex_sam ex_table 112 Melee 264.
Proof. split; [discriminate|]. split; [reflexivity|]. exists 264. split; [cbn; tauto | reflexivity]. Qed.
Lemma war_on_roster : on_roster ex_war ex_table 105 Tank 336.
Proof. split; [discriminate|]. split; [reflexivity|]. exists 336. split; [cbn; tauto | reflexivity]. Qed.
Lemma stats_case : on_roster ex_sam ex_table 112 Melee 264 /\ sensible ex_sam /\ loads "7.0" 100
  /\ stats_of (gear_of ex_sam) = Ok (gx_stats (gear_of ex_sam))
  /\ crit_steps ex_table ex_sam + 50 = 199 /\ dh_steps ex_table ex_sam = 213
  /\ get_time_using_speed_stat 2500 (q 1000) "7.0" 100 = Ok 2430
  /\ 2500 * (1000 - 130 * (1000 - 420) / 2780) / 10000 = 243.
Proof.
  split; [exact sam_on_roster|]. split; [numbers|]. split; [right; split; reflexivity|].
  split; [vm_compute; reflexivity|]. split; [reflexivity|]. split; [reflexivity|]. split; vm_compute; reflexivity.
Qed.
Lemma spec_case p c : 0 < p <= 3000 -> forall md, 0 <= md <= 200 -> whole_spec md (fx_damage_class p c) p md 100.
Proof.
  intros P md M. split; [reflexivity|]. split; [exact P|]. split; [reflexivity|]. split; [reflexivity|].
  split; [vm_compute; reflexivity|]. split; [exact M | lia].
Qed.
Lemma hit_short : exists h st t md r delay s d p b,
  stats_of (gear_of h) = Ok st /\ on_roster h t md r delay /\ sensible h
  /\ get_damage_spec s default_modifier = Ok (Some d) /\ whole_spec md d p md 100 /\ damage_class d = DC_DIRECT
  /\ hit_of whole t r md h 0 false p DC_DIRECT delay md 100 b
  /\ get_base_damage s default_modifier st (no_effects, no_effects) = Ok (Some (inject_Z (b - 1))).
Proof.
  exists ex_sam, (gx_stats (gear_of ex_sam)), ex_table, 112, Melee, 264, ex_hit, (fx_damage 300), 300, 15132.
  split; [vm_compute; reflexivity|]. split; [exact sam_on_roster|]. split; [numbers|]. split; [reflexivity|].
  split; [apply (spec_case 300 DC_DIRECT); lia|]. split; [reflexivity|].
  split; [|vm_compute; reflexivity].
  cbn [hit_of]. unfold direct_hit, tenacity, whole. cbn [is_magic is_tank_role]. do 2 eexists. split; [reflexivity|]. split; [reflexivity|]. vm_compute. reflexivity.
Qed.
Lemma auto_short : exists h st t md r delay s d p b,
  stats_of (gear_of h) = Ok st /\ on_roster h t md r delay /\ sensible h
  /\ get_damage_spec s default_modifier = Ok (Some d) /\ whole_spec md d p md 100 /\ damage_class d = DC_AUTO
  /\ hit_of whole t r md h 0 false p DC_AUTO delay md 100 b
  /\ exists x, get_base_damage s default_modifier st (no_effects, no_effects) = Ok (Some x) /\ (x < inject_Z (b - 1))%Q.
Proof.
  exists ex_war, (gx_stats (gear_of ex_war)), ex_table, 105, Tank, 336, ex_auto, (fx_damage_class 90 DC_AUTO), 90, 3759.
  split; [vm_compute; reflexivity|]. split; [exact war_on_roster|]. split; [numbers|]. split; [reflexivity|].
  split; [apply (spec_case 90 DC_AUTO); lia|]. split; [reflexivity|].
  split.
  - cbn [hit_of]. unfold auto_hit, auto_power, tenacity, whole. cbn [is_magic is_tank_role].
    do 6 eexists. repeat (split; [reflexivity|]). vm_compute. reflexivity.
  - exists (inject_Z 3740). split; vm_compute; reflexivity.
Qed.
Lemma hit_case : on_roster ex_sam ex_table 112 Melee 264 /\ sensible ex_sam
  /\ whole_spec 112 (fx_damage 300) 300 112 100 /\ adds_points no_effects 0 /\ fits (h_main ex_sam + (0 + 0))
  /\ ~ In F_YES (dh_sources (fx_damage 300) default_modifier (no_effects, no_effects)).
Proof.
  split; [exact sam_on_roster|]. split; [numbers|]. split; [apply (spec_case 300 DC_DIRECT); lia|].
  split; [repeat split|]. split; [numbers|]. cbn. intros [H|[H|[H|[H|[]]]]]; discriminate H.
Qed.
