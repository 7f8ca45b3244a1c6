(** * Specification vocabulary for auto attacks (C22, C23) *)

From Coq Require Import ZArith QArith List String Bool Permutation Sorted.
From Verif Require Import Base Float Types Lookup StatusEffect JobResource Combo Stats Library Events Rotation SpecQueue SpecPlay SpecTimeline.
Import ListNotations.
Open Scope Z_scope.

(** One auto attack: its snapshot time and target, and the delay before the next. *)
Record hit := mkHit { hit_time : Z; hit_target : string; hit_gap : Z }.
Definition hit_call (auto : skill) (delay : Z) (h : hit) : add_call :=
  auto_entry auto (hit_time h) (hit_time h + delay) (hit_target h).

(** The job's "Shot", or else its "Auto". *)
Definition auto_skill (b : builder) (s : skill) : Prop :=
  (has_skill (b_library b) "Shot" (st_job (b_stats b)) = Ok true
   /\ get_skill (b_library b) "Shot" (st_job (b_stats b)) = Ok s)
  \/ (has_skill (b_library b) "Shot" (st_job (b_stats b)) = Ok false
      /\ get_skill (b_library b) "Auto" (st_job (b_stats b)) = Ok s).

(** ** The target *)

(** [out] is [l] sorted by time; entries at the same time keep their order. *)
Definition by_time {A} (l out : list (Z * A)) : Prop :=
  StronglySorted (fun x y => fst x <= fst y) out
  /\ Permutation l out
  /\ forall t, filter (fun x => fst x =? t) out = filter (fun x => fst x =? t) l.

(** The main target of the latest press not after [t]; before the first press, the
    main target of the first press. *)
Definition main_target (presses : list (Z * string)) (t : Z) (target : string) : Prop :=
  exists out, by_time presses out
    /\ ((exists pre t0 post, out = (pre ++ (t0, target) :: post)%list /\ t0 <= t /\ Forall (fun x => t < fst x) post)
        \/ (Forall (fun x => t < fst x) out /\ exists t0 rest, out = (t0, target) :: rest)).

(** ** Effects on the delay *)

Definition quickens (sp : option status_spec) : Prop :=
  exists s, sp = Some s
    /\ ((0 < auto_attack_delay_reduction s)%Q \/ (0 < haste_time_reduction s)%Q
        \/ match flat_cast_time_reduction s with Fin z => 0 < z | Inf => True end).
(** The event starts a buff or debuff on speed at time [t]. *)
Definition speed_event (e : event) (t : Z) : Prop :=
  effect_time e t
  /\ exists bs ds, get_buff_spec (ev_skill e) (ev_modifier e) = Ok bs
       /\ get_debuff_spec (ev_skill e) (ev_modifier e) = Ok ds /\ (quickens bs \/ quickens ds).
Inductive speed_events : list event -> list (Z * skill) -> Prop :=
| spe_nil : speed_events [] []
| spe_yes e t l out : speed_event e t -> speed_events l out -> speed_events (e :: l) ((t, ev_skill e) :: out)
| spe_no e l out : (forall t, ~ speed_event e t) -> speed_events l out -> speed_events (e :: l) out.

(** Starting those effects one after the other, all on the default target. *)
Inductive started (targets : list string) : se_tracker -> list (Z * skill) -> se_tracker -> Prop :=
| st_nil se : started targets se [] se
| st_cons se t s se1 l se' :
    add_to_status_effects (expire_status_effects t se) t s default_modifier targets = Ok se1 ->
    started targets se1 l se' ->
    started targets se ((t, s) :: l) se'.

(** Buffs and debuffs in force at [t] given the timeline [evs]. *)
Definition auto_effects (b : builder) (evs : list event) (t : Z) (auto : skill) (buffs debuffs : status_effects) : Prop :=
  exists raw past future se se1 se2 mb md,
    speed_events evs raw
    /\ Permutation raw (past ++ future)
    /\ StronglySorted (fun x y => fst x <= fst y) past
    /\ Forall (fun x => fst x <= t) past /\ Forall (fun x => t < fst x) future
    /\ started [b_default_target b] (se_init (b_priority b)) past se
    /\ compile_buffs (expire_status_effects t se) t (snd (last past (0, auto))) = Ok (se1, (buffs, mb))
    /\ compile_debuffs se1 t (snd (last past (0, auto))) DEFAULT_TARGET = Ok (se2, (debuffs, md)).

(** Weapon delay in ms, times trait, buff and debuff multipliers, truncated to 10 ms. *)
Definition hasted_delay (st : stats) (buffs debuffs : status_effects) : Z :=
  qtrunc (fmul 10 (ffloor (fdiv
    (fmul (fmul (fmul (inject_Z (qtrunc (fmul 1000 (st_weapon_delay st)))) (fsub 1 (ps_trait_auto st)))
             (ef_auto_delay_mult buffs)) (ef_auto_delay_mult debuffs)) 10))).

(** ** When the next one may happen *)

(** An auto due at [t] inside a downtime window of its target waits for the end of it. *)
Definition after_downtime (w : list window) (t t' : Z) : Prop :=
  (t' = t /\ ~ in_downtime w t DC_AUTO)
  \/ exists r, In r w /\ (w_start r <= inject_Z t)%Q /\ (inject_Z t < w_end r)%Q
       /\ (w_class r = None \/ w_class r = Some DC_AUTO) /\ (w_end r == inject_Z t')%Q.

Definition covers (p : Z * ext) (t : Z) : Prop := fst p <= t /\ ext_le (Fin t) (snd p).
(** An auto due at [t] during casts or channels waits for the last of them to end. *)
Definition after_periods (ps : list (Z * ext)) (t : Z) (e : ext) : Prop :=
  (e = Fin t /\ forall p, In p ps -> ~ covers p t)
  \/ ((exists p, In p ps /\ covers p t /\ e = snd p) /\ forall p, In p ps -> covers p t -> ext_le (snd p) e).

Definition next_auto (b : builder) (target : string) (due : Z) (e : ext) : Prop :=
  exists t ps, after_downtime (windows_of b target) due t
    /\ get_no_auto_periods b = Ok ps /\ after_periods ps t e.

(** ** The autos of a run

    [base] is the timeline without autos, [last] the time all of them must apply
    before, [done] the autos so far, [t] the time of the next. *)
Inductive autos (b : builder) (base : list event) (auto : skill) (delay last : Z) : list hit -> Z -> list hit -> Prop :=
| autos_end done t : last <= t + delay -> autos b base auto delay last done t []
| autos_last done t target buffs debuffs :
    t + delay < last ->
    auto_effects b (base ++ map entry (map (hit_call auto delay) (done ++ [mkHit t target (hasted_delay (b_stats b) buffs debuffs)])))
      t auto buffs debuffs ->
    next_auto b target (t + hasted_delay (b_stats b) buffs debuffs) Inf ->
    autos b base auto delay last done t [mkHit t target (hasted_delay (b_stats b) buffs debuffs)]
| autos_more done t target buffs debuffs t' l :
    t + delay < last ->
    auto_effects b (base ++ map entry (map (hit_call auto delay) (done ++ [mkHit t target (hasted_delay (b_stats b) buffs debuffs)])))
      t auto buffs debuffs ->
    next_auto b target (t + hasted_delay (b_stats b) buffs debuffs) (Fin t') ->
    autos b base auto delay last (done ++ [mkHit t target (hasted_delay (b_stats b) buffs debuffs)]) t' l ->
    autos b base auto delay last done t (mkHit t target (hasted_delay (b_stats b) buffs debuffs) :: l).

(** [calls] are the autos added to the timeline [base]. *)
Definition autos_delivered (b : builder) (presses : list (Z * string)) (base : list event) (last0 : option Z)
    (auto : skill) (hits : list hit) (calls : list add_call) : Prop :=
  exists spec first last,
    auto_skill b auto /\ sk_timing auto = COne spec
    /\ earliest_damage base first
    /\ (match last0 with Some t => last = t | None => latest base (Some last) end)
    /\ autos b base auto (application_delay spec) last [] first hits
    /\ calls = map (hit_call auto (application_delay spec)) hits
    /\ (Forall (fun h => 0 <= hit_gap h) hits ->
        Forall (fun h => main_target presses (hit_time h) (hit_target h)) hits).

(** ** Casts and channels (C23) *)

(** What is in force at a press at [t], apart from positionals; as [SpecPlay.in_force]. *)
Definition faces (tk : trackers) (t : Z) (s : skill) (asked m : modifier) (buffs : status_effects) (tk' : trackers) : Prop :=
  exists se1 se2 jr ct mb debuffs md mj mc m1,
    compile_buffs (expire_status_effects t (tk_se tk)) t s = Ok (se1, (buffs, mb))
    /\ compile_debuffs se1 t s DEFAULT_TARGET = Ok (se2, (debuffs, md))
    /\ compile_job_resources (tk_jr tk) t (sk_name s) = (jr, mj)
    /\ m1 = add_to_condition (add_to_condition (add_to_condition asked mb) md) mj
    /\ compile_and_update_combo (tk_combo tk) t s m1 = Ok (ct, mc)
    /\ m = add_to_condition m1 mc
    /\ tk' = mkTrackers se2 jr ct.
(** Presses one after the other, with their cast times, and the periods of those that do
    cast.  Effects start when pressed, on the default target, and follow-ups are left out. *)
Inductive cast_periods (st : stats) (target : string) : trackers -> list timed -> list (Z * ext) -> Prop :=
| cp_nil tk : cast_periods st target tk [] []
| cp_press tk x m buffs tk1 ts c tk2 l ps own :
    faces tk (tm_time x) (tm_skill x) (tm_modifier x) m buffs tk1 ->
    get_timing_spec (tm_skill x) m = Ok ts -> is_cast_time st m buffs ts c -> 0 <= c ->
    grants tk1 (tm_time x) (tm_time x) (tm_skill x) m [target] tk2 ->
    (c = 0 -> own = []) -> (0 < c -> own = [(tm_time x, Fin (tm_time x + c))]) ->
    cast_periods st target tk2 l ps -> cast_periods st target tk (x :: l) (own ++ ps).

(** None of the windows ends inside another (or where another starts). *)
Definition separate_windows (w : list window) : Prop :=
  forall r r', In r w -> In r' w -> ~ ((w_start r' <= w_end r)%Q /\ (w_end r < w_end r')%Q).
Definition separate_periods (ps : list (Z * ext)) : Prop :=
  forall p p' e, In p ps -> In p' ps -> snd p = Fin e -> fst p' <= e -> ext_le (snd p') (snd p).
(** Half-open: an auto at the very end of a period is not inside it. *)
Definition inside (p : Z * ext) (t : Z) : Prop := fst p <= t /\ match snd p with Fin e => t < e | Inf => True end.
