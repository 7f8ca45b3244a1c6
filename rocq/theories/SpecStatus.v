(** * Specification vocabulary for status effects (C24-C27)

    Times are integers, [Inf] is forever; an effect's record is its start, end,
    remaining uses and spec. *)

From Coq Require Import ZArith QArith List String Bool.
From Verif Require Import Base Float Types StatusEffect.
Import ListNotations.
Open Scope Z_scope.

Definition not_over (t : Z) (e : ext) : Prop := match e with Fin x => t <= x | Inf => True end.
Definition has_uses (e : ext) : Prop := e <> Fin 0.

(** The effect [a], called [name], may affect a skill at time [t], priorities aside. *)
Definition eligible (t : Z) (s : skill) (name : string) (a : active) : Prop :=
  ac_start a <= t /\ not_over t (ac_end a) /\ has_uses (ac_uses a)
  /\ ~ In name (sk_denylist s)
  /\ (forall l, se_allowlist (ac_spec a) = Some l -> In (sk_name s) l).

(** [name] comes after an eligible effect in the job's priority list. *)
Definition suppressed (prio : list string) (elig : string -> Prop) (name : string) : Prop :=
  exists before higher between after,
    prio = (before ++ higher :: between ++ name :: after)%list /\ elig higher.

(** The effect counts. *)
Definition counts (prio : list string) (t : Z) (s : skill) (effects : dict active) (name : string) : Prop :=
  (exists a, dget name effects = Some a /\ eligible t s name a)
  /\ ~ suppressed prio (fun n => exists a, dget n effects = Some a /\ eligible t s n a) name.

(** [l1] is [l2] with some elements left out. *)
Inductive sublist {A} : list A -> list A -> Prop :=
| sub_nil : sublist [] []
| sub_skip x l1 l2 : sublist l1 l2 -> sublist l1 (x :: l2)
| sub_keep x l1 l2 : sublist l1 l2 -> sublist (x :: l1) (x :: l2).

(** Sums and products in double precision, from left to right. *)
Definition fsum (l : list Q) : Q := fold_left fadd l 0%Q.
Definition fprod (l : list Q) : Q := fold_left fmul l 1%Q.
Definition ext_sum (l : list ext) : ext := fold_left ext_add l (Fin 0).
Definition zsum (l : list Z) : Z := fold_left Z.add l 0.

(** The forced outcome among several: the only one that is not the default. *)
Definition forced_of (l : list forced) (f : forced) : Prop :=
  (f = F_DEFAULT /\ forall x, In x l -> x = F_DEFAULT)
  \/ exists l1 l2, l = (l1 ++ f :: l2)%list /\ f <> F_DEFAULT
       /\ forall x, In x (l1 ++ l2) -> x = F_DEFAULT.

(** The combination of a list of specs. *)
Definition combined (specs : list status_spec) (e : status_effects) : Prop :=
  ef_crit_rate_add e = fsum (map crit_rate_add specs)
  /\ ef_dh_rate_add e = fsum (map dh_rate_add specs)
  /\ ef_damage_mult e = fprod (map damage_mult specs)
  /\ ef_main_stat_add e = fsum (map main_stat_add specs)
  /\ ef_main_stat_mult e = fprod (map main_stat_mult specs)
  /\ ef_auto_delay_mult e = fprod (map (fun s => fsub 1 (auto_attack_delay_reduction s)) specs)
  /\ ef_haste_mult e = fprod (map (fun s => fsub 1 (haste_time_reduction s)) specs)
  /\ ef_flat_cast e = ext_sum (map flat_cast_time_reduction specs)
  /\ ef_flat_gcd e = zsum (map flat_gcd_recast_time_reduction specs)
  /\ forced_of (map se_crit specs) (ef_crit e)
  /\ forced_of (map se_dh specs) (ef_dh e).

(** One use less. *)
Definition used (a : active) : active :=
  mkActive (ac_start a) (ac_end a) (ext_subz (ac_uses a) 1) (ac_spec a).
Definition ended_at (t : Z) (a : active) : active :=
  mkActive (ac_start a) (Fin t) (ac_uses a) (ac_spec a).
Definition effect_names (e : status_effects) : list string := ef_names e.

(** At most one of several sources forces an outcome. *)
Definition at_most_one_forced (l : list forced) : Prop :=
  forall l1 x l2 y l3, l = (l1 ++ x :: l2 ++ y :: l3)%list -> x = F_DEFAULT \/ y = F_DEFAULT.

(** Calls of the tracker's API. *)
Inductive se_op :=
| SeExpire (t : Z)
| SeApply (t : Z) (s : skill) (m : modifier) (targets : list string)
| SeBuffs (t : Z) (s : skill)
| SeDebuffs (t : Z) (s : skill) (target : string).
Definition se_apply (st : se_tracker) (op : se_op) : res se_tracker :=
  match op with
  | SeExpire t => Ok (expire_status_effects t st)
  | SeApply t s m targets => add_to_status_effects st t s m targets
  | SeBuffs t s => let* (st', _) := compile_buffs st t s in Ok st'
  | SeDebuffs t s target => let* (st', _) := compile_debuffs st t s target in Ok st'
  end.
(** The trackers a program can build (from any priority list). *)
Definition se_reachable (st : se_tracker) : Prop :=
  exists prio ops, foldM se_apply ops (se_init prio) = Ok st.

(** ** Applying effects (C25) *)

(** How long an effect ending at [e] still lasts at [t]. *)
Definition remaining (t : Z) (e : ext) : ext :=
  match e with Fin x => Fin (Z.max 0 (x - t)) | Inf => Inf end.
Definition shorter (a b : ext) : ext :=
  match a, b with
  | Fin x, Fin y => Fin (Z.min x y)
  | Fin x, Inf | Inf, Fin x => Fin x
  | Inf, Inf => Inf
  end.
Definition plus (a b : ext) : ext :=
  match a, b with Fin x, Fin y => Fin (x + y) | _, _ => Inf end.

(** The record of an effect after a spec is applied at [t] on top of what was there. *)
Definition applied (t : Z) (sp : status_spec) (old : option active) : option active :=
  match old with
  | None =>
      if extend_only sp then None
      else Some (mkActive t (plus (Fin t) (duration sp)) (num_uses sp) sp)
  | Some a =>
      let left := remaining t (ac_end a) in
      Some (mkActive (ac_start a)
              (plus (Fin t) (if extends_existing_duration sp
                             then shorter (max_duration sp) (plus left (duration sp)) else left))
              (shorter (plus (ac_uses a) (num_uses sp)) (max_num_uses sp))
              sp)
  end.

Definition ended_if (b : bool) (t : Z) (old : option active) : option active :=
  if b then option_map (ended_at t) old else old.

(** One effect [n] after the skill [name] applies [sp] to where [n] lives. *)
Definition hit_by (t : Z) (name : string) (sp : status_spec) (n : string) (old : option active)
  : option active :=
  ended_if (smem n (expires_status_effects sp)) t
    (if String.eqb n name then applied t sp old else old).

(** ** A run of compilations (C26): expiry, then compilation of the buffs, each time;
    in between anything may happen that leaves [name]'s record alone.  The log has, per
    compilation, the tracker before it, the time, the skill, and whether [name] was
    among the effects used. *)
Inductive use_run (name : string) : Z -> se_tracker -> list (se_tracker * Z * skill * bool) -> Prop :=
| ur_nil t st : use_run name t st []
| ur_other t st st' l :
    se_reachable st' -> dget name (se_buffs st') = dget name (se_buffs st) ->
    use_run name t st' l -> use_run name t st l
| ur_compile t t' s st st' e c l :
    t <= t' ->
    compile_buffs (expire_status_effects t' st) t' s = Ok (st', (e, c)) ->
    use_run name t' st' l ->
    use_run name t st ((st, t', s, smem name (effect_names e)) :: l).
(** How often [name] was used in a log. *)
Definition times_used (l : list (se_tracker * Z * skill * bool)) : Z :=
  Z.of_nat (List.length (filter (fun x => snd x) l)).
Definition uses_left (u : ext) (n : Z) : Prop := match u with Fin k => n < k | Inf => True end.
(** [a] would count at [t] for [s], its uses aside. *)
Definition wanted (st : se_tracker) (t : Z) (s : skill) (name : string) (a : active) : Prop :=
  ac_start a <= t /\ not_over t (ac_end a)
  /\ ~ In name (sk_denylist s)
  /\ (forall l, se_allowlist (ac_spec a) = Some l -> In (sk_name s) l)
  /\ ~ suppressed (se_priority st)
         (fun n => exists b, dget n (se_buffs st) = Some b /\ eligible t s n b) name.
