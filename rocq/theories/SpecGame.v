(** * Vocabulary for the shipped skills (C52-C64) *)

From Coq Require Import ZArith QArith List String Bool.
From Verif Require Import Base Strings Types Lookup.
Import ListNotations.
Open Scope string_scope.
Open Scope Z_scope.

(** The follow-ups of a skill under any condition. *)
Definition follow_ups_of (s : skill) : list follow_up :=
  match sk_follow_ups s with TTuple l => l | TDict d => flat_map snd d end.
(** A skill, or a follow-up of a part of it. *)
Inductive part_of : skill -> skill -> Prop :=
| part_self s : part_of s s
| part_follow_up s fu p : In fu (follow_ups_of s) -> part_of p (fu_skill fu) -> part_of p s.

(** The values a spec field can take. *)
Definition cvalues {A} (c : cspec A) : list A :=
  match c with
  | CNone => []
  | COne a => [a]
  | CDict d => flat_map (fun kv => match snd kv with Some a => [a] | None => [] end) d
  end.
Definition tvalues {A} (t : tspec A) : list A :=
  match t with TTuple l => l | TDict d => flat_map snd d end.
Definition damages_of (s : skill) : list damage_spec := cvalues (sk_damage s).
Definition timings_of (s : skill) : list timing_spec := cvalues (sk_timing s).
Definition effects_of (s : skill) : list status_spec := (cvalues (sk_buff s) ++ cvalues (sk_debuff s))%list.
Definition combos_of (s : skill) : list combo_spec := tvalues (sk_combo s).
Definition changes_of (s : skill) : list jr_spec := tvalues (sk_job_resource s).

(** The conditions the tables of a skill distinguish. *)
Definition ckeys {A} (c : cspec A) : list (list string) := match c with CDict d => map fst d | _ => [] end.
Definition tkeys {A} (t : tspec A) : list (list string) := match t with TDict d => map fst d | _ => [] end.
Definition keys_of_skill (s : skill) : list (list string) :=
  (ckeys (sk_damage s) ++ ckeys (sk_timing s) ++ ckeys (sk_buff s) ++ ckeys (sk_debuff s)
   ++ tkeys (sk_job_resource s) ++ tkeys (sk_combo s) ++ tkeys (sk_follow_ups s))%list.
Definition mentions (s : skill) (c : string) : Prop := exists k, In k (keys_of_skill s) /\ In c k.

(** Numbers a simulation can work with. *)
Definition sane_timing (t : timing_spec) : Prop :=
  0 <= base_cast_time t /\ 0 <= gcd_base_recast t /\ 0 <= animation_lock t /\ 0 <= application_delay t.
Definition sane_override (o : option Q) : Prop := match o with Some x => (0 <= x)%Q | None => True end.
Definition sane_damage (d : damage_spec) : Prop :=
  (0 <= potency d /\ 0 <= single_damage_mult d /\ 0 < pet_scalar d)%Q
  /\ sane_override (trait_damage_mult_override d) /\ sane_override (pet_job_mod_override d).
Definition ext_nonneg (e : ext) : Prop := match e with Fin z => 0 <= z | Inf => True end.
Definition sane_effect (e : status_spec) : Prop :=
  (0 <= crit_rate_add e /\ 0 <= dh_rate_add e /\ 0 < damage_mult e /\ 0 < main_stat_mult e /\ 0 <= main_stat_add e
   /\ 0 <= auto_attack_delay_reduction e /\ auto_attack_delay_reduction e < 1
   /\ 0 <= haste_time_reduction e /\ haste_time_reduction e < 1)%Q
  /\ 0 <= flat_gcd_recast_time_reduction e /\ ext_nonneg (flat_cast_time_reduction e)
  /\ ext_nonneg (duration e) /\ ext_le (duration e) (max_duration e)
  /\ ext_nonneg (num_uses e) /\ ext_le (num_uses e) (max_num_uses e).

(** An effect that does nothing by itself. *)
Definition only_a_condition (e : status_spec) : Prop :=
  (crit_rate_add e == 0 /\ dh_rate_add e == 0 /\ damage_mult e == 1 /\ main_stat_add e == 0
   /\ main_stat_mult e == 1 /\ auto_attack_delay_reduction e == 0 /\ haste_time_reduction e == 0)%Q
  /\ flat_cast_time_reduction e = Fin 0 /\ flat_gcd_recast_time_reduction e = 0
  /\ se_crit e = F_DEFAULT /\ se_dh e = F_DEFAULT /\ expires_status_effects e = []
  /\ clear_all_status_effects e = false /\ add_to_skill_modifier_condition e = true.
(** The effect can reach the skill. *)
Definition allows (e : status_spec) (name : string) : Prop :=
  match se_allowlist e with None => True | Some l => In name l end.

Definition is_dot (d : damage_spec) : Prop :=
  damage_class d = DC_PHYSICAL_DOT \/ damage_class d = DC_MAGICAL_DOT.


(** Every lookup but that of the follow-ups succeeds. *)
Definition all_lookups_succeed (s : skill) (m : modifier) : Prop :=
  (exists d, get_damage_spec s m = Ok d) /\ (exists t, get_timing_spec s m = Ok t)
  /\ (exists b, get_buff_spec s m = Ok b) /\ (exists d, get_debuff_spec s m = Ok d)
  /\ (exists j, get_job_resource_spec s m = Ok j) /\ (exists c, get_combo_spec s m = Ok c)
  /\ (exists c, get_channeling_spec s m = Ok c).

(** The versions (in string order) and levels the job classes support. *)
Definition loads (v : string) (lv : Z) : Prop :=
  (lv = 90 /\ (v = "6.55" \/ str_leb "7.0" v = true)) \/ (lv = 100 /\ str_leb "7.0" v = true).

(** The modifiers [m] and [m'] agree up to the condition [c], which only [m] has. *)
Definition has_also (c : string) (m m' : modifier) : Prop :=
  In c (sm_cond m) /\ forall x, In x (sm_cond m') <-> In x (sm_cond m) /\ x <> c.

(** The potency of a skill under a modifier, 0 if it deals no damage. *)
Definition potency_at (s : skill) (m : modifier) (q : Q) : Prop :=
  exists d, get_damage_spec s m = Ok d /\ q = match d with Some x => potency x | None => 0%Q end.
(** The potency a follow-up adds: follow-ups are used without a condition (C14), and a DoT hits
    every 3 s of its duration. *)
Definition follow_up_potency (fu : follow_up) (q : Q) : Prop :=
  exists p, potency_at (fu_skill fu) default_modifier p
    /\ q = match fu_dot fu with None => p | Some d => (p * (d # 3000))%Q end.
(** The potency of a whole press, with all it leads to. *)
Definition press_potency (s : skill) (m : modifier) (q : Q) : Prop :=
  exists own fs qs, potency_at s m own /\ get_follow_up_skills s m = Ok fs
    /\ Forall2 follow_up_potency fs qs /\ q = fold_right Qplus own qs.

(** Names the job classes leave to generic skills and limit breaks. *)
Definition reserved (n : string) : bool :=
  String.prefix "Wait " n
  || smem n ["Grade 1 Gemdraught"; "Grade 2 Gemdraught"; "Grade 8 Tincture"; "Grade 7 Tincture";
             "Death"; "Weakness"; "Brink of Death"; "LB 1"; "LB 2"; "LB 3"].
(** A version strictly between two others, in string order. *)
Definition between (a v b : string) : Prop := str_ltb a v = true /\ str_ltb v b = true.
(** A skill modifier with these conditions and nothing else. *)
Definition cond_modifier (c : cond) : modifier := mkModifier F_DEFAULT F_DEFAULT c false false false None.
(** Damage before the random factors, up to what does not depend on the conditions. *)
Definition strength (d : damage_spec) : Q := (potency d * single_damage_mult d)%Q.
(** Effects whose allow list names no skill of the job. *)
Definition no_target (j n : string) : Prop :=
  (In j ["AST"; "SCH"; "SGE"] /\ n = "Swiftcast") \/ (j = "PCT" /\ n = "Rainbow Bright")
  \/ (j = "VPR" /\ n = "Poised for Twinfang").
(** Effects that only add a condition no skill they reach distinguishes. *)
Definition no_reader (j n : string) : Prop :=
  (j = "VPR" /\ In n ["Fellhunter's Venom"; "Fellskin's Venom"]) \/ (j = "BLM" /\ n = "Firestarter").
