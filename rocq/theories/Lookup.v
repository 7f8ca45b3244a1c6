(** * Condition-directed lookups.

    Models simulator/utils.py (get_best_key, get_positional_condition, version
    lookup), the canonicalisation and AoE falloff done by Skill.__post_init__ and
    the Skill.get_*_spec accessors (simulator/skills/skill.py). *)

From Coq Require Import ZArith QArith List String Bool.
From Verif Require Import Base Float Strings Types.
Import ListNotations.
Open Scope string_scope.
Open Scope Z_scope.

Definition clen (c : cond) : Z := Z.of_nat (List.length c).

(** utils.py lines 50-60: one iteration of the loop, on (max_match, best_keys). *)
Definition best_key_step (wc : cond) (st : Z * list cond) (key : cond) : Z * list cond :=
  let (max_match, best) := st in
  if clen key <? max_match then st
  else if subset key wc then
    if max_match <? clen wc then (clen key, [key]) else (max_match, (best ++ [key])%list)
  else st.

(** utils.py lines 46-69; [frozenset([SimConsts.DEFAULT_CONDITION])] is [[""]]. *)
Definition get_best_key (keys : list cond) (wc : cond) : res cond :=
  match snd (fold_left (best_key_step wc) keys (-1, [])) with
  | [] => Ok [""]
  | [k] => Ok k
  | _ => Err AssertionError
  end.

(** [d[Utils.get_best_key(d.keys(), wc)]] *)
Definition clookup {V} (d : list (cond * V)) (wc : cond) : res V :=
  let* k := get_best_key (map fst d) wc in
  of_option KeyError (cget k d).

(** skill.py lines 266-297: get_buff_spec, get_debuff_spec, get_timing_spec, get_damage_spec *)
Definition cspec_get {A} (c : cspec A) (m : modifier) : res (option A) :=
  match c with
  | CNone => Ok None
  | COne a => Ok (Some a)
  | CDict d => clookup d (sm_cond m)
  end.
Definition get_buff_spec (s : skill) := cspec_get (sk_buff s).
Definition get_debuff_spec (s : skill) := cspec_get (sk_debuff s).
Definition get_timing_spec (s : skill) := cspec_get (sk_timing s).
Definition get_damage_spec (s : skill) := cspec_get (sk_damage s).

(** skill.py lines 240-264: get_combo_spec, get_job_resource_spec, get_follow_up_skills *)
Definition tspec_get {A} (t : tspec A) (m : modifier) : res (list A) :=
  match t with
  | TTuple l => Ok l
  | TDict [] => Ok []
  | TDict d => clookup d (sm_cond m)
  end.
Definition get_combo_spec (s : skill) := tspec_get (sk_combo s).
Definition get_job_resource_spec (s : skill) := tspec_get (sk_job_resource s).
Definition get_follow_up_skills (s : skill) := tspec_get (sk_follow_ups s).

(** skill.py lines 299-305.  A dict of channeling specs keeps its string keys
    (__post_init__ does not canonicalise it), and [str] has no [issubset]. *)
Definition get_channeling_spec (s : skill) (m : modifier) : res (option channeling_spec) :=
  match sk_channeling s with
  | CNone => Ok None
  | COne a => Ok (Some a)
  | CDict [] => Err KeyError
  | CDict _ => Err AttributeError
  end.

(** ** Positional inference, utils.py lines 71-156 *)

(** Lines 73-87.  The value is [None] when accessing [.potency] on it would fail
    (a None entry, or a follow-up whose damage spec is itself a dict). *)
Fixpoint first_damage (l : list follow_up) : option (option damage_spec) :=
  match l with
  | [] => None
  | fu :: l' =>
      match sk_damage (fu_skill fu) with
      | CNone => first_damage l'
      | COne d => Some (Some d)
      | CDict _ => Some None
      end
  end.
Fixpoint follow_up_table (d : list (cond * list follow_up)) : list (cond * option damage_spec) :=
  match d with
  | [] => []
  | (k, l) :: d' =>
      match first_damage l with
      | Some e => (k, e) :: follow_up_table d'
      | None => follow_up_table d'
      end
  end.
Definition positional_table (s : skill) : option (list (cond * option damage_spec)) :=
  match sk_damage s with
  | CDict d => Some d
  | _ =>
      match sk_follow_ups s with
      | TDict d =>
          match follow_up_table d with
          | [] => None
          | t => Some t
          end
      | TTuple _ => None
      end
  end.

(** [table[Utils.get_best_key(table.keys(), wc)]], which must have a [.potency] *)
Definition table_spec (t : list (cond * option damage_spec)) (wc : cond) : res damage_spec :=
  let* e := clookup t wc in
  of_option AttributeError e.

(** Lines 147-149: [int(100 * (potency - min) / potency)] *)
Definition bonus_percent_of (p mn : Q) : res Z :=
  if Qeq_bool p 0 then Err ZeroDivisionError
  else Ok (qtrunc (fdiv (fmul (inject_Z 100) (fsub p mn)) p)).

(** Lines 133-152: the search loop. *)
Fixpoint positional_search (t : list (cond * option damage_spec)) (min_potency : Q)
    (bonus : Q) (init : cond) (to_try : list modifier) : res string :=
  match to_try with
  | [] => Err ValueError
  | m :: rest =>
      let* sp := table_spec t (sm_cond m) in
      let mn := match use_min_potency sp with
                | Some u => if Qeq_bool u 0 then min_potency else u
                | None => min_potency
                end in
      let* b := bonus_percent_of (potency sp) mn in
      if Qeq_bool (inject_Z b) bonus then
        Ok (join ", " (sm_cond (add_to_condition m (join "," init))))
      else positional_search t min_potency bonus init rest
  end.

Definition get_positional_condition (s : skill) (m : modifier) : res string :=
  match positional_table s with
  | None => Ok ""
  | Some t =>
      let missed := existsb (fun kv => smem "No Positional" (fst kv)) t in
      match missed, sm_bonus_percent m with
      | false, _ | _, None => Ok (join ", " (sm_cond m))
      | true, Some bonus =>
          let sm := fold_left remove_from_condition (sk_ignored_conditions s) m in
          if Qeq_bool bonus 0 then
            Ok (join ", " (sadd "No Positional" (sm_cond m)))
          else
            let no_both := add_to_condition sm "No Combo, No Positional" in
            let* mn := table_spec t (sm_cond no_both) in
            positional_search t (potency mn) bonus (sm_cond m)
              [sm; add_to_condition sm "No Positional";
               add_to_condition sm "No Combo"; no_both]
      end
  end.

(** The callers' [try: m.add_to_condition(get_positional_condition(..)) except
    ValueError: print] (rotation_builder.py lines 519-524, 589-594;
    damage_builder.py lines 83-88, 162-167). *)
Definition add_positional (s : skill) (m : modifier) : res modifier :=
  match get_positional_condition s m with
  | Ok c => Ok (add_to_condition m c)
  | Err ValueError => Ok m
  | Err e => Err e
  end.

(** ** Version-keyed tables, utils.py lines 10-28 *)

(** [max(st)] of a non-empty list of strings. *)
Definition str_max (l : list string) : option string :=
  match l with
  | [] => None
  | x :: l' => Some (fold_left (fun m y => if str_ltb m y then y else m) l' x)
  end.
Definition get_greatest_val_less_than_query (vals : list string) (q : string) : res string :=
  of_option ValueError (str_max (filter (fun k => str_leb k q) vals)).
(** Returns Python None as [None]. *)
Definition get_greatest_dict_val {V} (d : dict V) (q : string) : option V :=
  match get_greatest_val_less_than_query (dkeys d) q with
  | Ok k => dget k d
  | Err _ => None
  end.

(** ** Skill.__post_init__ *)

(** A spec field as written by the author of a skill, with string-keyed dicts. *)
Inductive rspec (A : Type) :=
| RNone
| ROne (a : A)
| RDict (d : dict (option A)).
Arguments RNone {A}.
Arguments ROne {A} a.
Arguments RDict {A} d.

(** [tmp[frozenset(...)] = v] *)
Fixpoint cset {V} (k : cond) (v : V) (d : list (cond * V)) : list (cond * V) :=
  match d with
  | [] => [(k, v)]
  | (k', v') :: d' =>
      if cond_eqb k k' then (k', v) :: d' else (k', v') :: cset k v d'
  end.
(** skill.py lines 47-52 *)
Definition canonicalize_dict {V} (d : dict V) : list (cond * V) :=
  fold_left (fun acc kv => cset (canonicalize (fst kv)) (snd kv) acc) d [].

(** skill.py lines 199-226 for a spec field that is None, a spec or a dict. *)
Definition canonicalize_spec {A} (r : rspec A) : cspec A :=
  match r with
  | RNone => CNone
  | ROne a => COne a
  | RDict d => CDict (canonicalize_dict d)
  end.

Definition set_potency (d : damage_spec) (p : Q) : damage_spec :=
  mkDamage p (damage_class d) (ds_crit d) (ds_dh d) (trait_damage_mult_override d)
    (pet_job_mod_override d) (pet_scalar d) (use_min_potency d) (single_damage_mult d).

(** skill.py line 61: [range(2, 10)] *)
Definition dropoff_targets : list Z := [2; 3; 4; 5; 6; 7; 8; 9].

(** skill.py lines 62-65 *)
Definition target_key (key : string) (n : Z) : string :=
  match key with
  | EmptyString => "Target " ++ string_of_Z n
  | _ => key ++ ", Target " ++ string_of_Z n
  end.

(** skill.py lines 61-71: the new entries for one existing key. *)
Definition dropoff_entries (d : Q) (acc : dict (option damage_spec)) (key : string)
  : res (dict (option damage_spec)) :=
  foldM (fun acc n =>
    match dget key acc with
    | None => Err KeyError
    | Some None => Err AttributeError
    | Some (Some sp) =>
        Ok (dset (target_key key n) (Some (set_potency sp (fmul (fsub 1 d) (potency sp)))) acc)
    end) dropoff_targets acc.

(** skill.py lines 54-72; [keys = tuple(damage_spec.keys())] is taken first. *)
Definition process_aoe_dropoff (tbl : dict (option damage_spec)) (d : Q)
  : res (dict (option damage_spec)) :=
  foldM (dropoff_entries d) (dkeys tbl) tbl.

(** skill.py lines 192-197: the damage field after __post_init__.  The value
    returned by __process_aoe_dropoff is ignored, so only a dict (which is
    modified in place) gets the falloff entries. *)
Definition post_init_damage (r : rspec damage_spec) (dropoff : option Q) : res (cspec damage_spec) :=
  match dropoff, r with
  | None, _ => Ok (canonicalize_spec r)
  | Some d, RNone => let* _ := process_aoe_dropoff [("", None)] d in Ok CNone
  | Some d, ROne a => let* _ := process_aoe_dropoff [("", Some a)] d in Ok (COne a)
  | Some d, RDict t => let* t' := process_aoe_dropoff t d in Ok (CDict (canonicalize_dict t'))
  end.

(** skill.py lines 93-117: [has_buff] / [has_debuff].  For a tuple of follow-ups
    the loop breaks after the first one whatever it found. *)
Definition cspec_present {A} (c : cspec A) : bool :=
  match c with
  | CNone => false
  | COne _ => true
  | CDict d => existsb (fun kv => match snd kv with Some _ => true | None => false end) d
  end.
Definition cspec_not_none {A} (c : cspec A) : bool :=
  match c with CNone => false | _ => true end.
Definition has_effect (proj : skill -> cspec status_spec) (s : skill) : bool :=
  cspec_present (proj s)
  || match sk_follow_ups s with
     | TTuple [] => false
     | TTuple (fu :: _) => cspec_not_none (proj (fu_skill fu))
     | TDict d => existsb (fun kv => existsb (fun fu => cspec_not_none (proj (fu_skill fu))) (snd kv)) d
     end.
Definition has_buff := has_effect sk_buff.
Definition has_debuff := has_effect sk_debuff.

(** skill.py lines 119-160: [has_party_buff] / [has_party_debuff]. *)
Definition cspec_party (c : cspec status_spec) : bool :=
  match c with
  | CNone => false
  | COne s => is_party_effect s
  | CDict d => existsb (fun kv => match snd kv with Some s => is_party_effect s | None => false end) d
  end.
Definition has_party_effect (proj : skill -> cspec status_spec) (s : skill) : bool :=
  cspec_party (proj s)
  || match sk_follow_ups s with
     | TTuple [] => false
     | TTuple (fu :: _) => cspec_party (proj (fu_skill fu))
     | TDict d => existsb (fun kv => existsb (fun fu => cspec_party (proj (fu_skill fu))) (snd kv)) d
     end.
Definition has_party_buff := has_party_effect sk_buff.
Definition has_party_debuff := has_party_effect sk_debuff.
