(** * Outcomes of a hit in whole numbers: cases (C85) *)

From Coq Require Import ZArith QArith Qround String List Bool Lia Lqa.
From Verif Require Import Base Float Types Lookup StatusEffect Stats DamageBuild Damage SpecHit HitProps Fixtures SpecExact ExactCase.
Import ListNotations.
Open Scope Z_scope.

Definition ex_buffs (ps : list Z) : status_effects :=
  mkEffects (ef_crit_rate_add no_effects) (ef_dh_rate_add no_effects) (times ps) (ef_main_stat_add no_effects) (ef_main_stat_mult no_effects)
    (ef_auto_delay_mult no_effects) (ef_haste_mult no_effects) (ef_flat_cast no_effects) (ef_flat_gcd no_effects) F_DEFAULT F_DEFAULT [].
Definition ex_inst (p : Z) (ps ps' : list Z) : instance :=
  mkInst 500 (fx_skill "Cut" (COne (fx_damage p)) (fx_timing 0 0 0) true []) default_modifier (ex_buffs ps, ex_buffs ps') 7 DEFAULT_TARGET.
Definition ex_stats : stats := gx_stats (gear_of ex_sam).
Definition ex_sim (l : list instance) : simulator :=
  match ds_init ex_stats l with Ok s => s | Err _ => mkSimulator [] dt_init ex_stats end.

Lemma short_plain : plain_hit ex_stats Melee (ex_inst 220 [115] []) 11095 100 [115] [].
Proof.
  exists (fx_damage 220), (inject_Z 11095). split; [reflexivity|]. split; [vm_compute; reflexivity|]. split; [reflexivity|]. split; [lia|].
  split; [reflexivity|]. split; [lia|]. split; [reflexivity|]. split; [reflexivity|]. split; [cbn; lia | cbn; lia].
Qed.
Lemma roll_short : exists h st t md r delay l sim u rs x os o b lo,
  stats_of (gear_of h) = Ok st /\ on_roster h t md r delay /\ sensible h /\ fair u
  /\ ds_init st l = Ok sim /\ damage_ranges (ds_tracker sim) u = Ok rs
  /\ nth_error (ds_instances sim) 0 = Some x /\ nth_error rs 0 = Some os /\ plain_hit st r x b 100 [115] []
  /\ In o os /\ o_label o = label_of false false /\ (o_low o == q lo)%Q /\ lo = b * 95 / 100 * 115 / 100 - 1.
Proof.
  exists ex_sam, ex_stats, ex_table, 112, Melee, 264, [ex_inst 220 [115] []], (ex_sim [ex_inst 220 [115] []]), half_draws.
  exists (match damage_ranges (ds_tracker (ex_sim [ex_inst 220 [115] []])) half_draws with Ok rs => rs | Err _ => [] end).
  exists (ex_inst 220 [115] []), (match damage_ranges (ds_tracker (ex_sim [ex_inst 220 [115] []])) half_draws with Ok (os :: _) => os | _ => [] end).
  exists (match damage_ranges (ds_tracker (ex_sim [ex_inst 220 [115] []])) half_draws with Ok ((o :: _) :: _) => o | _ => mkOutcome "" 0 0 0 end), 11095, 12120.
  split; [vm_compute; reflexivity|]. split; [exact sam_on_roster|]. split; [numbers|]. split; [intros i k; cbn; lra|].
  split; [vm_compute; reflexivity|]. split; [vm_compute; reflexivity|]. split; [vm_compute; reflexivity|]. split; [vm_compute; reflexivity|].
  split; [exact short_plain|]. split; [vm_compute; left; reflexivity|]. split; [vm_compute; reflexivity|]. split; [vm_compute; reflexivity|reflexivity].
Qed.
Lemma three_plain : plain_hit ex_stats Melee (ex_inst 300 [110; 103] [105]) 15131 100 [110; 103] [105].
Proof.
  exists (fx_damage 300), (inject_Z 15131). split; [reflexivity|]. split; [vm_compute; reflexivity|]. split; [reflexivity|]. split; [lia|].
  split; [reflexivity|]. split; [lia|]. split; [reflexivity|]. split; [reflexivity|]. split; [cbn; lia | cbn; lia].
Qed.
Lemma roll_case : on_roster ex_sam ex_table 112 Melee 264 /\ sensible ex_sam /\ fair half_draws
  /\ plain_hit ex_stats Melee (ex_inst 300 [110; 103] [105]) 15131 100 [110; 103] [105]
  /\ match damage_ranges (ds_tracker (ex_sim [ex_inst 300 [110; 103] [105]])) half_draws with
     | Ok [os] => map (fun o => (Qfloor (o_low o), Qfloor (o_high o))) os
         = [(17100, 18899); (26487, 29274); (21374, 23624); (33109, 36593)]
     | _ => False
     end.
Proof.
  split; [exact sam_on_roster|]. split; [numbers|]. split; [intros i k; cbn; lra|]. split; [exact three_plain|]. vm_compute. reflexivity.
Qed.
