(** * Specification vocabulary for presses and the timeline they cause (C12-C21)

    A [played] press is what the caller can see of one button press: when, which
    skill, the modifier and the effects in force, the cast time.  The events it
    puts on the timeline are written down here from those fields alone. *)

From Coq Require Import ZArith QArith List String Bool.
From Verif Require Import Base Float Types StatusEffect JobResource Combo Stats Lookup Events Rotation SpecQueue.
Import ListNotations.
Open Scope Z_scope.

Record played := mkPlayed {
  pl_time : Z;
  pl_skill : skill;
  pl_asked : modifier;              (** the modifier of the add call *)
  pl_job : string;
  pl_targets : list string;
  pl_modifier : modifier;           (** after what buffs, resources and combos add *)
  pl_buffs : status_effects;
  pl_debuffs : status_effects;
  pl_timing : option timing_spec;
  pl_cast : Z;
  pl_follow_ups : list follow_up
}.

(** ** Cast and recast times *)

(** Base time -> speed stat (if affected) -> haste (if affected), truncated to 10 ms. *)
Definition scaled (st : stats) (ts : timing_spec) (base : Z) (mults : list Q) (t : Z) : Prop :=
  exists t1,
    (if affected_by_speed_stat ts
     then exists c, get_consts (st_version st) (st_level st) = Ok c
                    /\ t1 = time_using_speed_stat c base (st_speed st)
     else t1 = base)
    /\ t = (if affected_by_haste_buffs ts
            then qtrunc (fmul 10 (ffloor (fdiv (fold_left fmul (mults ++ [fsub 1 (ps_trait_haste st)])%list (inject_Z t1)) 10)))
            else t1).

Definition is_cast_time (st : stats) (m : modifier) (buffs : status_effects) (ts : option timing_spec) (c : Z) : Prop :=
  if sm_ignore_cast_times m then c = 0
  else exists spec t, ts = Some spec
         /\ scaled st spec (base_cast_time spec) [ef_haste_mult buffs] t
         /\ match ef_flat_cast buffs with
            | Fin r => (r <= t -> c = t - r) /\ (t < r -> c = 0)
            | Inf => c = 0
            end.

Definition is_recast_time (st : stats) (spec : timing_spec) (buffs debuffs : status_effects) (r : Z) : Prop :=
  exists t,
    scaled st spec (gcd_base_recast spec) [ef_haste_mult buffs; ef_haste_mult debuffs] t
    /\ (gcd_base_recast spec <> 2500 -> r = t - ef_flat_gcd buffs)
    /\ (gcd_base_recast spec = 2500 -> 1500 <= t - ef_flat_gcd buffs -> r = t - ef_flat_gcd buffs)
    /\ (gcd_base_recast spec = 2500 -> t - ef_flat_gcd buffs < 1500 -> r = 1500).

(** ** Snapshot and application *)

Definition pl_snapshot (p : played) : Z :=
  if pl_cast p <=? 500 then pl_time p else pl_time p + pl_cast p - 500.

Definition delay_after_cast (cast delay : Z) : Z :=
  if cast <=? 0 then delay else if delay <=? 500 then 0 else delay - 500.

Definition pl_application (p : played) : Z :=
  pl_time p + pl_cast p +
  (if sm_ignore_application_delay (pl_modifier p) then 0
   else match pl_timing p with
        | Some spec => delay_after_cast (pl_cast p) (application_delay spec)
        | None => 0
        end).

(** The fields hang together. *)
Definition well_played (st : stats) (p : played) : Prop :=
  get_timing_spec (pl_skill p) (pl_modifier p) = Ok (pl_timing p)
  /\ is_cast_time st (pl_modifier p) (pl_buffs p) (pl_timing p) (pl_cast p)
  /\ (sm_ignore_application_delay (pl_modifier p) = false -> pl_timing p <> None)
  /\ get_follow_up_skills (pl_skill p) (pl_modifier p) = Ok (pl_follow_ups p)
  /\ pl_targets p <> [].

(** ** Timeline entries *)

Definition both : snap * snap := (SFlag true, SFlag true).
Definition plain_add (priority primary secondary : Z) (s : skill) (m : modifier) (sn : snap * snap)
    (targets : list string) : add_call :=
  {| ad_priority := priority; ad_primary := primary; ad_secondary := Some secondary; ad_skill := s;
     ad_modifier := m; ad_snap := sn; ad_id := None; ad_jr_added := false; ad_jr_cond := false;
     ad_combo_cond := false; ad_targets := targets |}.

(** The pressed skill itself. *)
Definition main_entry (p : played) : add_call :=
  plain_add (1000 * pl_snapshot p) (pl_snapshot p) (pl_application p) (pl_skill p) (pl_modifier p) both
    (pl_targets p).

(** The [k]-th follow-up (from 1), when it is not a damage-over-time effect. *)
Definition follow_up_entry (p : played) (k : Z) (fu : follow_up) : add_call :=
  let app := pl_application p + fu_delay fu in
  let inherits := fu_snap_buffs fu || fu_snap_debuffs fu in
  let prim := if inherits then pl_snapshot p else app in
  plain_add (1000 * prim + k) prim app (fu_skill fu) default_modifier
    (if inherits then (SFlag (fu_snap_buffs fu), SFlag (fu_snap_debuffs fu)) else both)
    (if fu_primary_only fu then firstn 1 (pl_targets p) else pl_targets p).

Definition follow_up_entries (p : played) (k : Z) (fu : follow_up) : list add_call :=
  match fu_dot fu with Some _ => [] | None => [follow_up_entry p k fu] end.

(** A damage-over-time application: target, effect, (snapshot, application, number). *)
Definition dot_application := (string * follow_up * dot_entry)%type.
Definition follow_up_dots (p : played) (k : Z) (fu : follow_up) : list dot_application :=
  match fu_dot fu with
  | Some _ => map (fun x => (x, fu, (pl_snapshot p, pl_application p, k))) (pl_targets p)
  | None => []
  end.

Fixpoint numbered {A B} (f : Z -> A -> list B) (k : Z) (l : list A) : list B :=
  match l with [] => [] | a :: l' => (f k a ++ numbered f (k + 1) l')%list end.

Definition press_entries (p : played) : list add_call :=
  main_entry p :: numbered (follow_up_entries p) 1 (pl_follow_ups p).
Definition press_dots (p : played) : list dot_application :=
  numbered (follow_up_dots p) 1 (pl_follow_ups p).

(** What [get_button_press_timing] shows for it. *)
Definition press_record (own_job : string) (p : played) : press :=
  {| pr_time := pl_time p; pr_name := sk_name (pl_skill p);
     pr_job := if String.eqb (pl_job p) own_job then EmptyString else pl_job p;
     pr_cond := Strings.join "," (sm_cond (pl_asked p)) |}.

(** Its time and main target. *)
Definition press_stamp (p : played) : Z * string := (pl_time p, hd EmptyString (pl_targets p)).

(** ** When sequenced presses happen *)

(** Lock after a press: a GCD also waits for its cast to end. *)
Definition busy (p : played) : Z :=
  (if sk_is_GCD (pl_skill p) then pl_cast p else 0)
  + match pl_timing p with Some spec => animation_lock spec | None => 0 end.

(** [ready] is the end of the previous press's lock, [gcd] the time the next GCD is
    available: each press happens at once, except that a GCD waits for [gcd]. *)
Inductive scheduled (st : stats) : Z -> option Z -> list played -> Prop :=
| sched_nil ready gcd : scheduled st ready gcd []
| sched_ogcd ready gcd p l :
    sk_is_GCD (pl_skill p) = false ->
    pl_timing p <> None ->
    pl_time p = ready ->
    scheduled st (pl_time p + busy p) gcd l ->
    scheduled st ready gcd (p :: l)
| sched_gcd ready gcd p l spec r :
    sk_is_GCD (pl_skill p) = true ->
    pl_timing p = Some spec ->
    is_recast_time st spec (pl_buffs p) (pl_debuffs p) r ->
    (forall g, gcd = Some g -> pl_time p = Z.max ready g) ->
    (gcd = None -> pl_time p = ready) ->
    scheduled st (pl_time p + busy p) (Some (pl_time p + r)) l ->
    scheduled st ready gcd (p :: l).

(** The press carries out that call. *)
Definition carries_seq (x : seq_item) (p : played) : Prop :=
  pl_skill p = sq_skill x /\ pl_asked p = sq_modifier x /\ pl_job p = sq_job x /\ pl_targets p = sq_targets x.
Definition carries_timed (x : timed) (p : played) : Prop :=
  pl_time p = tm_time x /\ pl_skill p = tm_skill x /\ pl_asked p = tm_modifier x /\ pl_job p = tm_job x
  /\ pl_targets p = tm_targets x.

(** ** What is in force at each press

    In terms of the trackers' own operations, which C24-C29 specify. *)

(** Before the press: effects active at the press time (debuffs: on the default
    target), then everything that adds conditions to the modifier asked for. *)
Definition in_force (tk : trackers) (p : played) (tk' : trackers) : Prop :=
  exists se1 se2 jr ct mb md mj mc m1 m2,
    compile_buffs (expire_status_effects (pl_time p) (tk_se tk)) (pl_time p) (pl_skill p) = Ok (se1, (pl_buffs p, mb))
    /\ compile_debuffs se1 (pl_time p) (pl_skill p) DEFAULT_TARGET = Ok (se2, (pl_debuffs p, md))
    /\ compile_job_resources (tk_jr tk) (pl_time p) (sk_name (pl_skill p)) = (jr, mj)
    /\ m1 = add_to_condition (add_to_condition (add_to_condition (pl_asked p) mb) md) mj
    /\ compile_and_update_combo (tk_combo tk) (pl_time p) (pl_skill p) m1 = Ok (ct, mc)
    /\ m2 = add_to_condition m1 mc
    /\ add_positional (pl_skill p) m2 = Ok (pl_modifier p)
    /\ tk' = mkTrackers se2 jr ct.

(** A skill starts its effects at [t] and its job resources at [tr]. *)
Definition grants (tk : trackers) (t tr : Z) (s : skill) (m : modifier) (targets : list string) (tk' : trackers) : Prop :=
  exists se jr, add_to_status_effects (tk_se tk) t s m targets = Ok se
    /\ add_resource (tk_jr tk) tr s m = Ok jr /\ tk' = mkTrackers se jr (tk_combo tk).

(** The follow-ups of a press, except damage over time. *)
Inductive follow_ups_grant (p : played) : trackers -> list follow_up -> trackers -> Prop :=
| fg_nil tk : follow_ups_grant p tk [] tk
| fg_dot tk fu d l tk' : fu_dot fu = Some d -> follow_ups_grant p tk l tk' -> follow_ups_grant p tk (fu :: l) tk'
| fg_skill tk fu tk1 l tk' :
    fu_dot fu = None ->
    grants tk (pl_application p + fu_delay fu) (pl_application p + fu_delay fu) (fu_skill fu) default_modifier
      (if fu_primary_only fu then firstn 1 (pl_targets p) else pl_targets p) tk1 ->
    follow_ups_grant p tk1 l tk' ->
    follow_ups_grant p tk (fu :: l) tk'.

Inductive tracked : trackers -> list played -> Prop :=
| tracked_nil tk : tracked tk []
| tracked_cons tk p tk1 tk2 tk3 l :
    in_force tk p tk1 ->
    grants tk1 (pl_application p) (pl_snapshot p) (pl_skill p) (pl_modifier p) (pl_targets p) tk2 ->
    follow_ups_grant p tk2 (pl_follow_ups p) tk3 ->
    tracked tk3 l ->
    tracked tk (p :: l).
