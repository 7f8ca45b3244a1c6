(** * simulator/trackers/status_effect_tracker.py *)

From Coq Require Import ZArith QArith List String Bool.
From Verif Require Import Base Float Strings Types Lookup.
Import ListNotations.
Open Scope string_scope.
Open Scope Z_scope.

(** SimConsts.DEFAULT_TARGET, sim_consts.py line 9 *)
Definition DEFAULT_TARGET : string := "Default Target".

(** The tuple (start_time, end_time, num_uses, spec) stored per effect, lines 42-47. *)
Record active := mkActive {
  ac_start : Z;
  ac_end : ext;
  ac_uses : ext;
  ac_spec : status_spec
}.

(** Lines 8-11.  [debuffs] maps a target to its effects; a missing target and an
    empty dict are the same to every method. *)
Record se_tracker := mkSe {
  se_buffs : dict active;
  se_debuffs : dict (dict active);
  se_priority : list string
}.
Definition se_init (priority : list string) : se_tracker := mkSe [] [] priority.

(** Lines 13-16 (without creating the empty entry). *)
Definition get_debuffs (st : se_tracker) (target : string) : dict active :=
  match dget target (se_debuffs st) with Some d => d | None => [] end.
Definition set_buffs (st : se_tracker) (b : dict active) : se_tracker :=
  mkSe b (se_debuffs st) (se_priority st).
Definition set_debuffs (st : se_tracker) (target : string) (d : dict active) : se_tracker :=
  mkSe (se_buffs st) (dset target d (se_debuffs st)) (se_priority st).

(** Lines 18-24 *)
Definition expired_at (t : Z) (a : active) : bool :=
  z_gt_ext t (ac_end a) || ext_is0 (ac_uses a).
Definition expire_effects (t : Z) (d : dict active) : dict active :=
  filter (fun kv => negb (expired_at t (snd kv))) d.
(** Lines 26-29 *)
Definition expire_status_effects (t : Z) (st : se_tracker) : se_tracker :=
  mkSe (expire_effects t (se_buffs st))
    (map (fun kv => (fst kv, expire_effects t (snd kv))) (se_debuffs st))
    (se_priority st).

(** Lines 31-82; the warning print is left out. *)
Definition add_effect (d : dict active) (start : Z) (name : string) (sp : status_spec)
  : dict active :=
  match dget name d with
  | None =>
      if extend_only sp then d
      else dset name (mkActive start (ext_add (Fin start) (duration sp)) (num_uses sp) sp) d
  | Some prev =>
      let time_left := ext_max0 (ext_subz (ac_end prev) start) in
      let new_duration :=
        if extends_existing_duration sp
        then ext_min (max_duration sp) (ext_add time_left (duration sp))
        else time_left in
      let new_uses := ext_min (ext_add (ac_uses prev) (num_uses sp)) (max_num_uses sp) in
      dset name (mkActive (ac_start prev) (ext_add (Fin start) new_duration) new_uses sp) d
  end.

(** Lines 84-106 *)
Definition end_effect (d : dict active) (name : string) (t : Z) : dict active :=
  match dget name d with
  | None => d
  | Some a => dset name (mkActive (ac_start a) (Fin t) (ac_uses a) (ac_spec a)) d
  end.
Definition expire_named_effect (st : se_tracker) (name : string) (t : Z) (target : string)
  : se_tracker :=
  let st1 := set_buffs st (end_effect (se_buffs st) name t) in
  match dget name (get_debuffs st1 target) with
  | None => st1
  | Some _ => set_debuffs st1 target (end_effect (get_debuffs st1 target) name t)
  end.

(** Lines 108-119: the buff part. *)
Definition apply_buff (st : se_tracker) (t : Z) (name : string) (sp : status_spec) : se_tracker :=
  let b0 := if clear_all_status_effects sp then [] else se_buffs st in
  fold_left (fun s n => expire_named_effect s n t DEFAULT_TARGET)
    (expires_status_effects sp)
    (set_buffs st (add_effect b0 t name sp)).
(** Lines 122-127: the debuff part, for one target. *)
Definition apply_debuff (t : Z) (name : string) (sp : status_spec) (st : se_tracker)
    (target : string) : se_tracker :=
  fold_left (fun s n => expire_named_effect s n t target)
    (expires_status_effects sp)
    (set_debuffs st target (add_effect (get_debuffs st target) t name sp)).
(** Lines 108-127 *)
Definition add_to_status_effects (st : se_tracker) (t : Z) (s : skill) (m : modifier)
    (targets : list string) : res se_tracker :=
  let* buff := get_buff_spec s m in
  let* debuff := get_debuff_spec s m in
  let st1 := match buff with
             | Some sp => apply_buff st t (sk_name s) sp
             | None => st
             end in
  Ok (match debuff with
      | Some sp => fold_left (apply_debuff t (sk_name s) sp) targets st1
      | None => st1
      end).

(** Lines 129-148: the names that may affect a skill, in dict order. *)
Definition valid_effect (t : Z) (deny : list string) (skill_name : string)
    (kv : string * active) : bool :=
  negb (t <? ac_start (snd kv))
  && negb (smem (fst kv) deny)
  && match se_allowlist (ac_spec (snd kv)) with
     | Some l => smem skill_name l
     | None => true
     end.
Definition valid_status_effects (t : Z) (d : dict active) (deny : list string)
    (skill_name : string) : list string :=
  map fst (filter (valid_effect t deny skill_name) d).

(** [del l[l.index(x)]] if present *)
Fixpoint remove_first (x : string) (l : list string) : list string :=
  match l with
  | [] => []
  | y :: l' => if String.eqb x y then l' else y :: remove_first x l'
  end.
(** Lines 150-164 *)
Fixpoint delete_lower_priority (prio : list string) (l : list string) : list string :=
  match prio with
  | [] => l
  | p :: rest =>
      if smem p l then fold_left (fun l x => remove_first x l) rest l
      else delete_lower_priority rest l
  end.

(** Lines 169-179 *)
Definition no_effects : status_effects :=
  mkEffects 0 0 1 0 1 1 1 (Fin 0) 0 F_DEFAULT F_DEFAULT [].

(** Lines 208-218: a second non-default forced status is an assertion error. *)
Definition merge_forced (acc new : forced) : res forced :=
  if forced_eqb new F_DEFAULT then Ok acc
  else if forced_eqb acc F_DEFAULT then Ok new
  else Err AssertionError.

(** Lines 199-218 for one effect. *)
Definition merge_effect (e : status_effects) (sp : status_spec) : res status_effects :=
  let* crit := merge_forced (ef_crit e) (se_crit sp) in
  let* dh := merge_forced (ef_dh e) (se_dh sp) in
  Ok (mkEffects
        (fadd (ef_crit_rate_add e) (crit_rate_add sp))
        (fadd (ef_dh_rate_add e) (dh_rate_add sp))
        (fmul (ef_damage_mult e) (damage_mult sp))
        (fadd (ef_main_stat_add e) (main_stat_add sp))
        (fmul (ef_main_stat_mult e) (main_stat_mult sp))
        (fmul (ef_auto_delay_mult e) (fsub 1 (auto_attack_delay_reduction sp)))
        (fmul (ef_haste_mult e) (fsub 1 (haste_time_reduction sp)))
        (ext_add (ef_flat_cast e) (flat_cast_time_reduction sp))
        (ef_flat_gcd e + flat_gcd_recast_time_reduction sp)
        crit dh (ef_names e)).

Definition set_names (e : status_effects) (l : list string) : status_effects :=
  mkEffects (ef_crit_rate_add e) (ef_dh_rate_add e) (ef_damage_mult e) (ef_main_stat_add e)
    (ef_main_stat_mult e) (ef_auto_delay_mult e) (ef_haste_mult e) (ef_flat_cast e)
    (ef_flat_gcd e) (ef_crit e) (ef_dh e) l.

(** Lines 189-221: the loop; state is (dict, accumulated effects, conditions). *)
Definition use_effect (st : dict active * status_effects * list string) (name : string)
  : res (dict active * status_effects * list string) :=
  let '(d, e, conds) := st in
  let* a := of_option KeyError (dget name d) in
  let d' := dset name (mkActive (ac_start a) (ac_end a) (ext_subz (ac_uses a) 1) (ac_spec a)) d in
  let* e' := merge_effect e (ac_spec a) in
  Ok (d', e', if add_to_skill_modifier_condition (ac_spec a) then (conds ++ [name])%list else conds).

(** Lines 166-237: returns the updated dict, the effects and the condition string. *)
Definition compile_effects (prio : list string) (t : Z) (d : dict active) (deny : list string)
    (skill_name : string) : res (dict active * (status_effects * string)) :=
  let names := delete_lower_priority prio (valid_status_effects t d deny skill_name) in
  let* (d', e, conds) := foldM use_effect names (d, no_effects, []) in
  Ok (d', (set_names e names, join ", " conds)).

(** Lines 239-243 *)
Definition compile_buffs (st : se_tracker) (t : Z) (s : skill)
  : res (se_tracker * (status_effects * string)) :=
  let* (d, r) := compile_effects (se_priority st) t (se_buffs st) (sk_denylist s) (sk_name s) in
  Ok (set_buffs st d, r).
(** Lines 245-249 *)
Definition compile_debuffs (st : se_tracker) (t : Z) (s : skill) (target : string)
  : res (se_tracker * (status_effects * string)) :=
  let* (d, r) := compile_effects (se_priority st) t (get_debuffs st target) (sk_denylist s) (sk_name s) in
  Ok (set_debuffs st target d, r).
