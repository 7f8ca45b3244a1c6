(** * C52-C62: the shipped skill library *)

From Coq Require Import ZArith QArith List String Bool.
From Verif Require Import Base Strings Types Lookup Library Combo SpecGame Py GameLib GameLoad GameProps GameCases.
Import ListNotations.
Open Scope string_scope.
Open Scope Z_scope.

(** ** C52: which versions and levels load *)

Theorem C52_loads_exactly : forall v lv,
  (exists lib, create_skill_library v lv = Ok lib)
  <-> (lv = 90 /\ (v = "6.55" \/ str_leb "7.0" v = true)) \/ (lv = 100 /\ str_leb "7.0" v = true).
Proof. exact (fun v lv => iff_sym (loads_iff v lv)). Qed.
Print Assumptions C52_loads_exactly.

(** Versions between "6.55" and "7.0" at level 90 raise an AttributeError that the
    model reports as [Unmodelled]; see DESIGN.md. *)
Theorem C52_otherwise_raises : forall v lv,
  ~ loads v lv ->
  create_skill_library v lv = Err (if (lv =? 90) && str_ltb "6.55" v then Unmodelled else AssertionError).
Proof. exact not_loaded. Qed.
Print Assumptions C52_otherwise_raises.
Example C52_case : loads "7.05" 90 /\ loads "6.55" 90 /\ loads "7.1" 100 /\ ~ loads "6.6" 90 /\ ~ loads "7.1" 95.
Proof.
  unfold loads. cbn. repeat split; auto; intros [[A B]|[A B]]; try discriminate; destruct B; discriminate.
Qed.

(** create_skill_library() itself: the defaults are version "6.55" and level 100. *)
Theorem C52_default_arguments_refuted : create_skill_library "6.55" 100 = Err AssertionError.
Proof. exact (not_loaded "6.55" 100 not_loads_default). Qed.
Print Assumptions C52_default_arguments_refuted.

(** Patches are compared as strings. *)
Theorem C52_patch_10_refuted : forall lv, create_skill_library "10.0" lv = Err AssertionError.
Proof. exact patch_10. Qed.
Print Assumptions C52_patch_10_refuted.

(** ** C53: what a library contains *)

Theorem C53_jobs : forall v lv lib,
  create_skill_library v lv = Ok lib ->
  lib_version lib = v /\ lib_level lib = lv /\
  get_jobs lib = (["DRK"; "GNB"; "PLD"; "WAR"; "AST"; "SCH"; "SGE"; "WHM"; "BRD"; "DNC"; "MCH"; "BLM"; "RDM"; "SMN"]
    ++ (if str_leb "7.0" v then ["PCT"] else []) ++ ["DRG"; "MNK"; "NIN"; "RPR"; "SAM"]
    ++ (if str_leb "7.0" v then ["VPR"] else []))%list.
Proof. exact shipped_contents. Qed.
Print Assumptions C53_jobs.

(** Each job has the skills its class declares, the generic ones, its limit breaks
    and no others; a class whose get_skills raises ValueError declares none. *)
Theorem C53_exactly_the_declared_skills : forall v lv lib c cs gen lbs n s,
  create_skill_library v lv = Ok lib ->
  In c (loaded_classes (ver_rank v)) -> load_class (ver_rank v) (lev_rank lv) c = Ok cs ->
  generic_skills (ver_rank v) (lev_rank lv) = Ok gen -> lbs_of (cs_job cs) = Ok lbs ->
  (get_skill lib n (cs_job cs) = Ok s <->
   sk_name s = n /\ ((exists own, cs_skills cs = Ok own /\ In s own) \/ In s gen \/ In s lbs)).
Proof. exact shipped_exactly. Qed.
Print Assumptions C53_exactly_the_declared_skills.

Theorem C53_own_skills_partial : forall v lv lib j,
  create_skill_library v lv = Ok lib -> In j (get_jobs lib) -> (j = "VPR" -> ~ between "7.01" v "7.05") ->
  exists n s, get_skill lib n j = Ok s /\ reserved n = false.
Proof. exact shipped_own. Qed.
Print Assumptions C53_own_skills_partial.
Example C53_case : exists lib, create_skill_library "7.1" 100 = Ok lib.
Proof. exact lib_case. Qed.

(** From "7.01" to "7.05" Viper has no skill of its own. *)
Theorem C53_viper_refuted : forall v lv lib n s,
  create_skill_library v lv = Ok lib -> between "7.01" v "7.05" -> get_skill lib n "VPR" = Ok s ->
  reserved n = true.
Proof. exact shipped_viper_empty. Qed.
Print Assumptions C53_viper_refuted.
Example C53_viper_case : loads "7.02" 100 /\ between "7.01" "7.02" "7.05".
Proof. split; [right|]; split; reflexivity. Qed.

(** ** C54: every lookup succeeds *)

Theorem C54_lookups : forall v lv lib n j s p m,
  create_skill_library v lv = Ok lib -> get_skill lib n j = Ok s -> part_of p s -> NoDup (sm_cond m) ->
  all_lookups_succeed p m
  /\ (~ (j = "MCH" /\ sk_name p = "Automaton Queen") -> exists f, get_follow_up_skills p m = Ok f).
Proof. exact shipped_lookups. Qed.
Print Assumptions C54_lookups.

Theorem C54_pressable : forall v lv lib n j s m,
  create_skill_library v lv = Ok lib -> get_skill lib n j = Ok s -> NoDup (sm_cond m) ->
  exists t, get_timing_spec s m = Ok (Some t) /\ sane_timing t.
Proof. exact shipped_timed. Qed.
Print Assumptions C54_pressable.
(** A shipped skill with a combo, a resource change and follow-ups. *)
Example C54_case : exists lib s c a r, create_skill_library "7.1" 100 = Ok lib /\ get_skill lib "Aeolian Edge" "NIN" = Ok s
  /\ In c (combos_of s) /\ In a (combo_actions c) /\ In r (changes_of s) /\ jr_clear_all r = false.
Proof. exact edge_case. Qed.

Theorem C54_automaton_queen_refuted : forall v lv lib,
  create_skill_library v lv = Ok lib ->
  exists s, get_skill lib "Automaton Queen" "MCH" = Ok s /\ get_follow_up_skills s default_modifier = Err KeyError.
Proof. exact queen_fails. Qed.
Print Assumptions C54_automaton_queen_refuted.

(** ** C55: sane numbers *)

Theorem C55_numbers : forall v lv lib n j s p,
  create_skill_library v lv = Ok lib -> get_skill lib n j = Ok s -> part_of p s ->
  (forall t, In t (timings_of p) -> sane_timing t) /\ (forall d, In d (damages_of p) -> sane_damage d)
  /\ (forall e, In e (effects_of p) -> sane_effect e) /\ (forall fu, In fu (follow_ups_of p) -> 0 <= fu_delay fu).
Proof. exact shipped_numbers. Qed.
Print Assumptions C55_numbers.

(** A follow-up has a DoT duration exactly when it deals DoT damage, and lasts a
    whole number of server ticks; Flamethrower's is an odd length. *)
Theorem C55_dots : forall v lv lib n j s p fu,
  create_skill_library v lv = Ok lib -> get_skill lib n j = Ok s -> part_of p s -> In fu (follow_ups_of p) ->
  match fu_dot fu with
  | Some d => damages_of (fu_skill fu) <> [] /\ (forall x, In x (damages_of (fu_skill fu)) -> is_dot x) /\ 0 <= d
              /\ (~ (j = "MCH" /\ sk_name p = "Flamethrower") -> 0 < d /\ d mod 3000 = 0)
  | None => forall x, In x (damages_of (fu_skill fu)) -> ~ is_dot x
  end.
Proof. exact shipped_dots. Qed.
Print Assumptions C55_dots.
Example C55_case : exists lib s fu d, create_skill_library "7.1" 100 = Ok lib /\ get_skill lib "Doton" "NIN" = Ok s
  /\ In fu (follow_ups_of s) /\ fu_dot fu = Some d.
Proof. exact doton_case. Qed.

(** ** C56: combos can be completed *)

Theorem C56_combo_actions_exist_partial : forall v lv lib n j s p c a,
  create_skill_library v lv = Ok lib -> get_skill lib n j = Ok s -> part_of p s ->
  In c (combos_of p) -> In a (combo_actions c) ->
  ~ (j = "RDM" /\ sk_name p = "Enchanted Moulinet Trois") ->
  exists t q c', get_skill lib a j = Ok t /\ part_of q t /\ In c' (combos_of q) /\ combo_group c' = combo_group c.
Proof. exact shipped_combos. Qed.
Print Assumptions C56_combo_actions_exist_partial.
Example C56_case : exists lib s c a r, create_skill_library "7.1" 100 = Ok lib /\ get_skill lib "Aeolian Edge" "NIN" = Ok s
  /\ In c (combos_of s) /\ In a (combo_actions c) /\ In r (changes_of s) /\ jr_clear_all r = false.
Proof. exact edge_case. Qed.

(** No sequence of Red Mage skills makes Enchanted Moulinet Trois a combo. *)
Theorem C56_moulinet_trois_refuted : forall v lv lib,
  create_skill_library v lv = Ok lib -> str_leb "7.0" v = true ->
  exists s, get_skill lib "Enchanted Moulinet Trois" "RDM" = Ok s /\
  forall breakers uses ct,
    (forall u, In u uses -> exists m y, get_skill lib m "RDM" = Ok y /\ part_of (snd (fst u)) y) ->
    foldM use_combo uses (combo_init breakers) = Ok ct ->
    forall t m, sm_force_combo m = false -> exists ct', compile_and_update_combo ct t s m = Ok (ct', COMBO_FAIL).
Proof. exact trois_fails. Qed.
Print Assumptions C56_moulinet_trois_refuted.

(** ** C57: job resources are declared *)

Theorem C57_resources_declared : forall v lv lib n j s p c,
  create_skill_library v lv = Ok lib -> get_skill lib n j = Ok s -> part_of p s -> In c (changes_of p) ->
  jr_clear_all c = true \/
  exists d, get_all_resource_settings lib j = Ok d /\ In (jr_name c) (map fst d).
Proof. exact shipped_resources. Qed.
Print Assumptions C57_resources_declared.
Example C57_case : exists lib s c a r, create_skill_library "7.1" 100 = Ok lib /\ get_skill lib "Aeolian Edge" "NIN" = Ok s
  /\ In c (combos_of s) /\ In a (combo_actions c) /\ In r (changes_of s) /\ jr_clear_all r = false.
Proof. exact edge_case. Qed.

(** ** C58: restricted effects reach a skill *)

Theorem C58_allow_lists_partial : forall v lv lib n j s p e al,
  create_skill_library v lv = Ok lib -> get_skill lib n j = Ok s -> part_of p s ->
  In e (effects_of p) -> se_allowlist e = Some al -> ~ no_target j (sk_name p) ->
  exists t q, get_skill lib (sk_name t) j = Ok t /\ part_of q t /\ In (sk_name q) al.
Proof. exact shipped_reach. Qed.
Print Assumptions C58_allow_lists_partial.
Example C58_case : exists lib s e al, create_skill_library "7.1" 100 = Ok lib /\ get_skill lib "Bunshin" "NIN" = Ok s
  /\ sk_name s = "Bunshin" /\ In e (effects_of s) /\ se_allowlist e = Some al /\ only_a_condition e
  /\ ~ no_target "NIN" "Bunshin" /\ ~ no_reader "NIN" "Bunshin".
Proof. exact bunshin_case. Qed.

Theorem C58_swiftcast_refuted : forall v lv lib j,
  create_skill_library v lv = Ok lib -> In j ["AST"; "SCH"; "SGE"] ->
  exists s e al, get_skill lib "Swiftcast" j = Ok s /\ In e (effects_of s) /\ se_allowlist e = Some al /\
    forall m t q, get_skill lib m j = Ok t -> part_of q t -> ~ In (sk_name q) al.
Proof. exact swiftcast_dead. Qed.
Print Assumptions C58_swiftcast_refuted.

(** At level 90 the skills of two more allow lists do not exist yet. *)
Theorem C58_level_90_refuted : forall v lib,
  create_skill_library v 90 = Ok lib -> str_leb "7.0" v = true ->
  dead_effect_of lib "PCT" "Rainbow Bright"
  /\ (~ between "7.01" v "7.05" -> dead_effect_of lib "VPR" "Poised for Twinfang").
Proof. exact level_90_dead. Qed.
Print Assumptions C58_level_90_refuted.

(** ** C59: effects that only add a condition change some skill *)

Theorem C59_conditions_are_read_partial : forall v lv lib n j s p e,
  create_skill_library v lv = Ok lib -> get_skill lib n j = Ok s -> part_of p s ->
  In e (effects_of p) -> only_a_condition e -> ~ no_reader j (sk_name p) -> ~ no_target j (sk_name p) ->
  exists t q, get_skill lib (sk_name t) j = Ok t /\ part_of q t /\ allows e (sk_name q) /\ mentions q (sk_name p).
Proof. exact shipped_matters. Qed.
Print Assumptions C59_conditions_are_read_partial.
Example C59_case : exists lib s e al, create_skill_library "7.1" 100 = Ok lib /\ get_skill lib "Bunshin" "NIN" = Ok s
  /\ sk_name s = "Bunshin" /\ In e (effects_of s) /\ se_allowlist e = Some al /\ only_a_condition e
  /\ ~ no_target "NIN" "Bunshin" /\ ~ no_reader "NIN" "Bunshin".
Proof. exact bunshin_case. Qed.

Theorem C59_viper_venoms_refuted : forall v lv lib,
  create_skill_library v lv = Ok lib -> str_leb "7.0" v = true -> ~ between "7.01" v "7.05" ->
  inert_effect lib "VPR" "Fellhunter's Venom" /\ inert_effect lib "VPR" "Fellskin's Venom".
Proof. exact venoms_inert. Qed.
Print Assumptions C59_viper_venoms_refuted.

Theorem C59_firestarter_refuted : forall lv lib,
  create_skill_library "6.55" lv = Ok lib -> inert_effect lib "BLM" "Firestarter".
Proof. exact firestarter_inert. Qed.
Print Assumptions C59_firestarter_refuted.

(** The condition a skill gets on another job is one its tables distinguish. *)
Theorem C59_off_class_condition : forall v lv lib n j s p,
  create_skill_library v lv = Ok lib -> get_skill lib n j = Ok s -> part_of p s ->
  sk_off_class_default p = "" \/ mentions p (sk_off_class_default p).
Proof. exact shipped_off_class. Qed.
Print Assumptions C59_off_class_condition.
Example C59_off_class_case : exists lib s, create_skill_library "7.1" 100 = Ok lib /\ get_skill lib "Dokumori" "NIN" = Ok s
  /\ sk_off_class_default s <> "".
Proof. exact dokumori_case. Qed.

(** ** C60: a missed combo or positional is never better *)

Theorem C60_miss_not_better_partial : forall v lv lib n j s p c m m' a,
  create_skill_library v lv = Ok lib -> get_skill lib n j = Ok s -> part_of p s ->
  ~ (j = "MNK" /\ sk_name p = "Snap Punch") ->
  c = "No Combo" \/ c = "No Positional" -> NoDup (sm_cond m) -> NoDup (sm_cond m') -> has_also c m m' ->
  get_damage_spec p m = Ok (Some a) ->
  exists b, get_damage_spec p m' = Ok (Some b) /\ (potency a <= potency b)%Q.
Proof. exact shipped_miss. Qed.
Print Assumptions C60_miss_not_better_partial.
Example C60_case : exists lib s x y, create_skill_library "7.1" 100 = Ok lib /\ get_skill lib "Heavens' Thrust" "DRG" = Ok s
  /\ has_also "No Combo" (cond_modifier ["No Combo"]) (cond_modifier [])
  /\ get_damage_spec s (cond_modifier ["No Combo"]) = Ok (Some x) /\ get_damage_spec s (cond_modifier []) = Ok (Some y)
  /\ (potency x < potency y)%Q.
Proof. exact thrust_case. Qed.

(** Many skills hit through follow-ups chosen by the condition: the same holds for the sum of
    what a press deals itself, by its follow-ups and by its DoTs over their duration. *)
Theorem C60_press_partial : forall v lv lib n j s p c m m' a,
  create_skill_library v lv = Ok lib -> get_skill lib n j = Ok s -> part_of p s ->
  ~ (j = "MNK" /\ sk_name p = "Snap Punch") ->
  c = "No Combo" \/ c = "No Positional" -> NoDup (sm_cond m) -> NoDup (sm_cond m') -> has_also c m m' ->
  press_potency p m a -> exists b, press_potency p m' b /\ (a <= b)%Q.
Proof. exact press_miss. Qed.
Print Assumptions C60_press_partial.
Example C60_press_case : exists lib s q, create_skill_library "7.1" 100 = Ok lib /\ get_skill lib "Aeolian Edge" "NIN" = Ok s
  /\ has_also "No Combo" (cond_modifier ["No Combo"]) (cond_modifier [])
  /\ press_potency s (cond_modifier ["No Combo"]) q.
Proof. exact edge_press. Qed.

Theorem C60_snap_punch_refuted : forall v lib,
  create_skill_library v 90 = Ok lib -> str_leb "7.0" v = true ->
  exists s x y, get_skill lib "Snap Punch" "MNK" = Ok s
    /\ get_damage_spec s (cond_modifier ["Coeurl's Fury"; "No Positional"]) = Ok (Some x)
    /\ get_damage_spec s (cond_modifier ["Coeurl's Fury"]) = Ok (Some y) /\ (strength y < strength x)%Q.
Proof. exact snap_punch. Qed.
Print Assumptions C60_snap_punch_refuted.

(** Buffs are not always better either: with Sharpcast, Fire loses the Astral Fire bonus. *)
Theorem C60_sharpcast_refuted : forall lv lib,
  create_skill_library "6.55" lv = Ok lib ->
  exists s x y, get_skill lib "Fire" "BLM" = Ok s
    /\ get_damage_spec s (cond_modifier ["3 Astral Fire"]) = Ok (Some x)
    /\ get_damage_spec s (cond_modifier ["3 Astral Fire"; "Sharpcast"]) = Ok (Some y) /\ (strength y < strength x)%Q.
Proof. exact sharp_fire. Qed.
Print Assumptions C60_sharpcast_refuted.

(** ** C61: waits and deaths on every job *)

Theorem C61_waits : forall v lv lib j k,
  create_skill_library v lv = Ok lib -> In j (get_jobs lib) -> 0 <= k < 1000 ->
  exists s, get_skill lib (wait_name (10 * k)) j = Ok s
    /\ damages_of s = [] /\ effects_of s = [] /\ follow_ups_of s = []
    /\ forall m, get_timing_spec s m = Ok (Some (mkTiming 0 2500 (10 * k) 0 true true)).
Proof. exact shipped_waits. Qed.
Print Assumptions C61_waits.
Example C61_names : map (fun k => wait_name (10 * k)) [0; 5; 70; 999] = ["Wait 0.00s"; "Wait 0.05s"; "Wait 0.70s"; "Wait 9.99s"].
Proof. reflexivity. Qed.

Theorem C61_deaths : forall v lv lib j n,
  create_skill_library v lv = Ok lib -> In j (get_jobs lib) -> In n ["Death"; "Weakness"; "Brink of Death"] ->
  exists s, get_skill lib n j = Ok s
    /\ existsb clear_all_status_effects (flat_map (fun fu => effects_of (fu_skill fu)) (follow_ups_of s)) = true
    /\ existsb break_all_combos_only (flat_map (fun fu => combos_of (fu_skill fu)) (follow_ups_of s)) = true
    /\ existsb jr_clear_all (flat_map (fun fu => changes_of (fu_skill fu)) (follow_ups_of s)) = true.
Proof. exact shipped_deaths. Qed.
Print Assumptions C61_deaths.

(** ** C62: only the version's place among the known ones matters *)

Theorem C62_version_positions : forall v v' lv lib lib',
  (forall x, In x ["6.55"; "7.0"; "7.01"; "7.05"; "7.1"] -> str_ltb x v = str_ltb x v' /\ (v = x <-> v' = x)) ->
  create_skill_library v lv = Ok lib -> create_skill_library v' lv = Ok lib' ->
  lib_skills lib = lib_skills lib' /\ lib_priority lib = lib_priority lib'
  /\ lib_resources lib = lib_resources lib' /\ lib_breakers lib = lib_breakers lib'.
Proof. exact same_position. Qed.
Print Assumptions C62_version_positions.
Example C62_case : forall x, In x ["6.55"; "7.0"; "7.01"; "7.05"; "7.1"] ->
  str_ltb x "7.2" = str_ltb x "7.15" /\ ("7.2" = x <-> "7.15" = x).
Proof. cbn. intros x [<-|[<-|[<-|[<-|[<-|[]]]]]]; (split; [reflexivity | split; discriminate]). Qed.

(** ** C09 on shipped skills: Foul's falloff is declared and ignored *)

Theorem C09_foul_refuted : forall v lv lib,
  create_skill_library v lv = Ok lib ->
  exists s d x, declared v lv "BLM" s d /\ (0 < d < 1)%Q /\ get_skill lib "Foul" "BLM" = Ok s
    /\ forall m, get_damage_spec s m = Ok (Some x).
Proof. exact foul_keeps. Qed.
Print Assumptions C09_foul_refuted.
