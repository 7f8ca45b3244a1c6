(** * Deciding what a run needs of the shipped skills (C64) *)

From Coq Require Import ZArith QArith List String Bool Lia.
From Verif Require Import Base BaseFacts Strings Types Lookup Library SpecGame Py GameLib GameFacts GameCheck GameCounter.
Import ListNotations.
Open Scope string_scope.
Open Scope Z_scope.

(** ** Forced outcomes *)

Definition forced_skills : list string := ["Fell Cleave"; "Decimate"].
Definition forcesb (e : status_spec) : bool :=
  negb (forced_eqb (se_crit e) F_DEFAULT && forced_eqb (se_dh e) F_DEFAULT).
(** Inner Release decides for Fell Cleave and Decimate only, Life Surge for neither. *)
Definition force_ok (n : string) (e : status_spec) : bool :=
  negb (forcesb e)
  || match se_allowlist e with
     | None => false
     | Some l => (String.eqb n "Inner Release" && forallb (fun x => smem x forced_skills) l)
                 || (String.eqb n "Life Surge" && forallb (fun x => negb (smem x forced_skills)) l)
     end.

(** ** Quicker autos *)

Definition quick_names : list string :=
  ["Presence of Mind"; "Army's Paeon"; "Army's Muse"; "Ley Lines"; "Huton (Armor Crush)"; "Huton (Hakke)";
   "Huton (Huton)"; "Fuka"; "Swiftscaled"].
Definition quick_ok (n : string) (e : status_spec) : bool :=
  let x := auto_attack_delay_reduction e in
  Qeq_bool x 0 || (smem n quick_names && Qle_bool x (1 # 4)) || (String.eqb n "Riddle of Wind" && Qle_bool x (1 # 2)).

(** ** Positionals *)

Definition positional_ok (s : skill) : bool :=
  match positional_table s with
  | None => true
  | Some t =>
      negb (existsb (fun kv => smem "No Positional" (fst kv)) t)
      || (table_ok t && forallb (fun kv => match snd kv with Some d => negb (Qeq_bool (potency d) 0) | None => false end) t)
  end.

(** ** Debuffs (C76) *)

Definition debuff_names : list string := ["Chain Stratagem"; "Dokumori"; "Kunai's Bane"; "Death's Design"; "Mug"; "Trick Attack"; "Noxious Gnash"].
Definition q0b (x : Q) : bool := match x with Qmake Z0 xH => true | _ => false end.
Definition untimelyb (e : status_spec) : bool :=
  q0b (haste_time_reduction e) && q0b (auto_attack_delay_reduction e) && negb (add_to_skill_modifier_condition e)
  && forced_eqb (se_crit e) F_DEFAULT && forced_eqb (se_dh e) F_DEFAULT.
Definition apart_ok (p : skill) : bool :=
  forallb (fun e => untimelyb e && smem (sk_name p) debuff_names) (cvalues (sk_debuff p))
  && forallb (fun e => forallb (fun n => negb (smem n debuff_names)) (expires_status_effects e)) (cvalues (sk_buff p)).

(** ** Buffs (C86) *)

Definition support_names : list string :=
  ["Battle Litany"; "Brotherhood"; "Arcane Circle"; "Embolden"; "Searing Light"; "Battle Voice"; "Devilment"; "Divination"; "Chain Stratagem";
   "Card"; "Left Eye"; "Dragon Sight"; "No Mercy"; "Fight or Flight"; "Raging Strikes"; "Lance Charge"; "Riddle of Fire"].
Definition supportiveb (e : status_spec) : bool :=
  Qle_bool 0 (crit_rate_add e) && (Qle_bool 0 (dh_rate_add e) && (Qle_bool 1 (damage_mult e) && (Qle_bool 0 (main_stat_add e)
  && (match main_stat_mult e with Qmake 1 xH => true | _ => false end && (q0b (auto_attack_delay_reduction e) && (q0b (haste_time_reduction e)
  && (match flat_cast_time_reduction e with Fin 0 => true | _ => false end && ((flat_gcd_recast_time_reduction e =? 0)
  && (forced_eqb (se_crit e) F_DEFAULT && (forced_eqb (se_dh e) F_DEFAULT && (negb (add_to_skill_modifier_condition e)
  && (match expires_status_effects e with [] => true | _ => false end && negb (clear_all_status_effects e))))))))))))).
Definition supportb (s : skill) : bool :=
  match sk_damage s, sk_follow_ups s, sk_combo s, sk_job_resource s with
  | CNone, TTuple [], TTuple [], TTuple [] => true | _, _, _, _ => false end && forallb supportiveb (effects_of s).
Definition unnamed (l : list string) : bool := forallb (fun n => negb (smem n support_names)) l.
(** ... nor autos (C87) or ticks (C92). *)
Definition auto_names : list string := ["Shot"; "Auto"].
Definition tick_names : list string :=
  ["Salted Earth (dot)"; "Bow Shock (dot)"; "Sonic Break (dot)"; "Circle of Scorn (dot)"; "Combust III (dot)"; "Baneful Impaction (dot)"; "Biolysis (dot)";
   "Eukrasian Dosis III (dot)"; "Dia (dot)"; "Caustic Bite (dot)"; "Stormbite (dot)"; "Bioblaster (dot)"; "Flamethrower (dot)"; "Thunder (dot)";
   "Slipstream (dot)"; "Chaotic Spring (dot)"; "Demolish (dot)"; "Doton (dot)"; "Doton hollow nozuchi (dot)"; "Higanbana (dot)"].
Definition no_auto (l : list string) : bool := forallb (fun n => negb (smem n auto_names) && negb (smem n tick_names)) l.
Definition uses_freeb (e : status_spec) : bool :=
  match num_uses e, max_num_uses e with Inf, Inf => true | _, _ => match se_allowlist e with Some l => unnamed l && no_auto l | None => false end end.
Definition support_ok (p : skill) : bool :=
  (if smem (sk_name p) support_names then supportb p else true) && (unnamed (map (fun fu => sk_name (fu_skill fu)) (follow_ups_of p))
  && forallb (fun e => Qle_bool 0 (damage_mult e) && uses_freeb e) (effects_of p)).
Definition unranked (x : loaded_job) : bool :=
  unnamed (set_priority (cs_priority (fst x))) && forallb (fun nc => unnamed (jrs_allowlist (snd nc)) && no_auto (jrs_allowlist (snd nc))) (cs_resources (fst x)).

(** ** Ticks (C92) *)

Definition redq (x : Q) : bool := (Qnum (Qred x) =? Qnum x) && Pos.eqb (Qden (Qred x)) (Qden x).
Definition redo (x : option Q) : bool := match x with Some x => redq x | None => true end.
(** Nothing but damage, with fractions in lowest terms. *)
Definition tick_plain (s : skill) : bool :=
  match sk_damage s with
  | COne d => redq (potency d) && (redo (trait_damage_mult_override d) && (redo (pet_job_mod_override d) && (redq (pet_scalar d)
              && (redo (use_min_potency d) && redq (single_damage_mult d)))))
  | _ => false end
  && (match sk_timing s, sk_channeling s with CDict _, _ => false | _, CNone => true | _, _ => false end
  && (match sk_buff s, sk_debuff s with CNone, CNone => true | _, _ => false end
  && match sk_follow_ups s, sk_combo s, sk_job_resource s with TTuple [], TTuple [], TTuple [] => true | _, _, _ => false end)).
Definition ticks_ok (p : skill) : bool :=
  forallb (fun fu => match fu_dot fu with None => true | Some _ => smem (sk_name (fu_skill fu)) tick_names && tick_plain (fu_skill fu) end) (follow_ups_of p).

Definition run_part_ok (p : skill) : bool :=
  forallb (force_ok (sk_name p)) (effects_of p) && forallb (quick_ok (sk_name p)) (cvalues (sk_buff p))
  && forallb (fun e => Qeq_bool (auto_attack_delay_reduction e) 0) (cvalues (sk_debuff p))
  && apart_ok p && ((positional_ok p && ticks_ok p) && support_ok p).

(** ** Autos *)

Definition auto_plain (s : skill) : bool :=
  match sk_buff s, sk_debuff s with CNone, CNone => true | _, _ => false end
  && (match sk_follow_ups s, sk_combo s, sk_job_resource s with TTuple [], TTuple [], TTuple [] => true | _, _, _ => false end
  && match sk_timing s with COne ts => 0 <=? application_delay ts | _ => true end).
Definition auto_ok (s : skill) : bool :=
  if smem (sk_name s) auto_names then
    match sk_timing s, follow_ups_of s with COne _, [] => true | _, _ => false end && auto_plain s
  else true.
Definition autos_ok (own : list skill) : bool :=
  match own with [] => true | _ => existsb (fun s => smem (sk_name s) auto_names) own end.

Definition runs_at (js : list loaded_job) (ps : list skill) : bool :=
  forallb (fun x => forallb (fun s => all_parts 6 run_part_ok s && auto_ok s) (snd x) && (autos_ok (snd x) && unranked x)) js
  && forallb (all_parts 6 run_part_ok) ps.
