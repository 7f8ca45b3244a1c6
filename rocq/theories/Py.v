(** * The part of Python the shipped job definitions are written in.

    simulator/game_data/class_skills/*/*.py define one class per job
    (a subclass of GenericJobClass, simulator/game_data/generic_job_class.py),
    whose decorated methods build Skill objects.  tools/gen_game_data.py
    translates their syntax trees node by node into the terms below
    (Data_XXX.v); [eval] and [exec] give the terms their Python meaning.

    Simplifications: containers have value semantics (no definition keeps two
    references to a container it later changes); a data table entry is
    evaluated when it is read, not at import; the version and the level only
    enter through comparisons with the literals [vlit] and [llit] and through
    the data tables, so they are represented by their position relative to
    these literals ([ver_rank], [lev_rank]; PyFacts.v relates the two). *)

From Coq Require Import ZArith QArith List String Bool.
From Verif Require Import Base Float Strings Types Lookup.
Import ListNotations.
Open Scope string_scope.
Open Scope Z_scope.

(** ** Versions and levels *)

(** The version strings the definitions compare with or use as table keys. *)
Inductive vlit : Set := V655 | V70 | V701 | V705 | V71.
Definition vlit_name (v : vlit) : string :=
  match v with
  | V655 => "6.55" | V70 => "7.0" | V701 => "7.01" | V705 => "7.05" | V71 => "7.1"
  end.
Definition vlits : list vlit := [V655; V70; V701; V705; V71].
Definition vlit_pos (v : vlit) : Z :=
  match v with V655 => 1 | V70 => 3 | V701 => 5 | V705 => 7 | V71 => 9 end.
(** Position of a version among the literals, in string order: [vlit_pos v] if
    it is [v], the even number in between otherwise. *)
Definition ver_rank (version : string) : Z :=
  fold_right (fun v n => (if str_ltb (vlit_name v) version then 2
                          else if String.eqb (vlit_name v) version then 1 else 0) + n) 0 vlits.

(** The level literals of comparisons, and the positions of a level relative to
    them and to the table keys 90 and 100. *)
Inductive llit : Set := K92 | K96 | K100.
Definition llit_num (k : llit) : Z := match k with K92 => 92 | K96 => 96 | K100 => 100 end.
Inductive lrank : Set := LBelow | L90 | L92 | L96 | L100 | LAbove.
Definition lev_rank (level : Z) : lrank :=
  if level =? 90 then L90 else if level =? 100 then L100
  else if level <? 92 then LBelow else if level <? 96 then L92
  else if level <? 100 then L96 else LAbove.
(** [level < k] *)
Definition lev_ltb (l : lrank) (k : llit) : bool :=
  match l, k with
  | (LBelow | L90), _ => true
  | L92, K92 => false
  | L92, _ => true
  | L96, K100 => true
  | L96, _ => false
  | (L100 | LAbove), _ => false
  end.
(** The table key the level is equal to. *)
Definition lev_key (l : lrank) : option Z :=
  match l with L90 => Some 90 | L100 => Some 100 | _ => None end.

(** ** Syntax *)

Inductive cmpop : Set := OLt | OLe | OGt | OGe | OEq | ONe.
Inductive binop : Set := BAdd | BSub | BMul | BDiv | BOr.

Inductive expr :=
| ENone
| EBool (b : bool)
| EInt (z : Z)
| EFlt (n : Z) (d : positive)         (* the decimal literal n/d *)
| EStr (s : string)
| EVar (x : string)
| EConst (x : string)                 (* SimConsts.X, DamageClass.X, math.inf ... *)
| ESelf (x : string)                  (* self.x *)
| ETup (l : list expr)
| EList (l : list expr)
| EDict (l : list (expr * expr))
| EBin (o : binop) (a b : expr)
| ENeg (a : expr)
| EPos (a : expr)
| EIf (c a b : expr)
| EOr (a b : expr)
| EVer (o : cmpop) (v : vlit)         (* self._version o v *)
| ELev (o : cmpop) (k : llit)         (* self._level o k *)
| ECmp (o : cmpop) (a b : expr)
| EFmt (l : list expr)                (* f-string without format specs *)
| EIdx (a i : expr)
| EKeys (a : expr)                    (* a.keys() *)
| EItems (a : expr)                   (* a.items() *)
| ECall (f : string) (args : list expr) (kws : list (string * expr))
| EMeth (f : string) (args : list expr) (kws : list (string * expr))  (* self.f(...) *)
| EData (skill param : expr)          (* self._skill_data.get_skill_data(...) *)
| EPot (skill : expr)                 (* ...get_potency *)
| EPotNC (skill : expr)               (* ...get_potency_no_combo *)
| EPotNP (skill : expr).              (* ...get_potency_no_positional *)

Inductive stmt :=
| SAsg (x : string) (e : expr)
| SSet (x : string) (path : list expr) (e : expr)     (* x[p1][p2]... = e *)
| SAttr (x : string) (e : expr)                       (* self.x = e *)
| SApp (x : string) (e : expr)                        (* x.append(e) *)
| SIf (c : expr) (a b : list stmt)
| SFor (xs : list string) (unpack : bool) (e : expr) (body : list stmt)
| SRet (e : expr)
| SSkip.

Record pmethod := mkMethod {
  m_name : string;
  m_params : list (string * option expr);
  m_body : list stmt
}.

(** skill -> level -> parameter -> version -> value *)
Definition data_table := list (string * list (Z * list (string * list (vlit * expr)))).

Record pclass := mkClass {
  c_attrs : list (string * expr);
  c_init : list stmt;
  c_methods : list pmethod;
  c_skills : list string;       (* is_a_skill methods, sorted by name as dir() does *)
  c_resources : list string;    (* is_a_resource methods *)
  c_data : data_table
}.

(** ** Values *)

Inductive value :=
| VNone
| VBool (b : bool)
| VInt (z : Z)
| VFloat (q : Q)
| VInf (neg : bool)
| VStr (s : string)
| VTup (l : list value)
| VList (l : list value)
| VDict (d : list (value * value))
| VDClass (c : dclass)
| VForced (f : forced)
| VDamage (d : damage_spec)
| VTiming (t : timing_spec)
| VStatus (s : status_spec)
| VChan (c : channeling_spec)
| VJr (j : jr_spec)
| VJrs (j : jr_settings)
| VCombo (c : combo_spec)
| VFu (f : follow_up)
| VSkill (s : skill) (aoe_dropoff : option Q).

(** Equality of dict keys: strings and integers only. *)
Definition keqb (a b : value) : bool :=
  match a, b with
  | VStr x, VStr y => String.eqb x y
  | VInt x, VInt y => x =? y
  | _, _ => false
  end.
Fixpoint vget (k : value) (d : list (value * value)) : option value :=
  match d with
  | [] => None
  | (k', v) :: d' => if keqb k k' then Some v else vget k d'
  end.
Fixpoint vset (k v : value) (d : list (value * value)) : list (value * value) :=
  match d with
  | [] => [(k, v)]
  | (k', v') :: d' => if keqb k k' then (k', v) :: d' else (k', v') :: vset k v d'
  end.

Definition truthy (v : value) : bool :=
  match v with
  | VNone => false
  | VBool b => b
  | VInt z => negb (z =? 0)
  | VFloat q => negb (Qeq_bool q 0)
  | VStr s => negb (String.eqb s "")
  | VTup l | VList l => match l with [] => false | _ => true end
  | VDict d => match d with [] => false | _ => true end
  | _ => true
  end.

Definition cmp_bool (o : cmpop) (c : comparison) : bool :=
  match o, c with
  | OLt, Lt | OLe, Lt | OLe, Eq | OGt, Gt | OGe, Gt | OGe, Eq | OEq, Eq
  | ONe, Lt | ONe, Gt => true
  | _, _ => false
  end.
(** Comparisons of values: equality of strings only (blm.py lines 473, 660). *)
Definition val_cmp (o : cmpop) (a b : value) : res value :=
  match o, a, b with
  | OEq, VStr x, VStr y => Ok (VBool (String.eqb x y))
  | ONe, VStr x, VStr y => Ok (VBool (negb (String.eqb x y)))
  | _, _, _ => Err Unmodelled
  end.

(** Arithmetic: integers stay integers, a float operand gives a float. *)
Definition num_q (v : value) : option Q :=
  match v with VInt z => Some (inject_Z z) | VFloat q => Some q | _ => None end.
Definition val_bin (o : binop) (a b : value) : res value :=
  match o, a, b with
  | BAdd, VInt x, VInt y => Ok (VInt (x + y))
  | BSub, VInt x, VInt y => Ok (VInt (x - y))
  | BMul, VInt x, VInt y => Ok (VInt (x * y))
  | BAdd, VTup x, VTup y => Ok (VTup (x ++ y))
  | BAdd, VList x, VList y => Ok (VList (x ++ y))
  | BAdd, VStr x, VStr y => Ok (VStr (x ++ y)%string)
  | BOr, VDict x, VDict y => Ok (VDict (fold_left (fun d kv => vset (fst kv) (snd kv) d) y x))
  | _, _, _ =>
      match num_q a, num_q b with
      | Some x, Some y =>
          match o with
          | BAdd => Ok (VFloat (fadd x y))
          | BSub => Ok (VFloat (fsub x y))
          | BMul => Ok (VFloat (fmul x y))
          | BDiv => if Qeq_bool y 0 then Err ZeroDivisionError else Ok (VFloat (fdiv x y))
          | BOr => Err TypeError
          end
      | _, _ =>
          match a, b with
          | VNone, _ | _, VNone => Err TypeError
          | _, _ => Err Unmodelled
          end
      end
  end.
Definition val_neg (a : value) : res value :=
  match a with
  | VInt z => Ok (VInt (- z))
  | VFloat q => Ok (VFloat (- q))
  | VInf b => Ok (VInf (negb b))
  | VNone => Err TypeError
  | _ => Err Unmodelled
  end.
Definition val_pos (a : value) : res value :=
  match a with
  | VInt _ | VFloat _ | VInf _ => Ok a
  | VNone => Err TypeError
  | _ => Err Unmodelled
  end.

(** [str(v)] inside an f-string *)
Definition val_str (v : value) : res string :=
  match v with
  | VStr s => Ok s
  | VInt z => Ok (string_of_Z z)
  | _ => Err Unmodelled
  end.

(** [a[i]] *)
Definition val_idx (a i : value) : res value :=
  match a, i with
  | VDict d, _ => of_option KeyError (vget i d)
  | (VTup l | VList l), VInt z =>
      if z <? 0 then Err Unmodelled else of_option IndexError (nth_error l (Z.to_nat z))
  | VNone, _ => Err TypeError
  | _, _ => Err Unmodelled
  end.
(** [a[i] = v] *)
Fixpoint set_nth (n : nat) (v : value) (l : list value) : option (list value) :=
  match l, n with
  | [], _ => None
  | _ :: l', O => Some (v :: l')
  | x :: l', S n' => option_map (cons x) (set_nth n' v l')
  end.
Definition val_set1 (a i v : value) : res value :=
  match a, i with
  | VDict d, _ => Ok (VDict (vset i v d))
  | VList l, VInt z =>
      if z <? 0 then Err Unmodelled
      else let* l' := of_option IndexError (set_nth (Z.to_nat z) v l) in Ok (VList l')
  | _, _ => Err TypeError
  end.
(** [a[p1][p2]... = v] *)
Fixpoint val_set (a : value) (path : list value) (v : value) : res value :=
  match path with
  | [] => Ok v
  | [i] => val_set1 a i v
  | i :: path' =>
      let* sub := val_idx a i in
      let* sub' := val_set sub path' v in
      val_set1 a i sub'
  end.

(** What [for] and [tuple()] iterate over. *)
Definition val_iter (a : value) : res (list value) :=
  match a with
  | VTup l | VList l => Ok l
  | VDict d => Ok (map fst d)
  | VNone => Err TypeError
  | _ => Err Unmodelled
  end.

(** ** Constructors of specs *)

(** Keyword arguments after positional ones are matched with the fields. *)
Definition kwargs := list (string * value).
Fixpoint bind_pos (fields : list string) (args : list value) (kws : kwargs) : res kwargs :=
  match args, fields with
  | [], _ => Ok kws
  | a :: args', f :: fields' =>
      let* r := bind_pos fields' args' kws in
      match dget f r with Some _ => Err TypeError | None => Ok ((f, a) :: r) end
  | _ :: _, [] => Err TypeError
  end.
Definition bind_fields (fields : list string) (args : list value) (kws : kwargs) : res kwargs :=
  let* r := bind_pos fields args kws in
  if forallb (fun kv => smem (fst kv) fields) r then Ok r else Err TypeError.
Definition field (k : string) (kws : kwargs) (dflt : value) : value :=
  match dget k kws with Some v => v | None => dflt end.
Definition required (k : string) (kws : kwargs) : res value := of_option TypeError (dget k kws).

(** Flags are only tested for truth; smn.py line 360 passes 0 for False. *)
Definition as_bool (v : value) : res bool :=
  match v with VBool b => Ok b | VInt z => Ok (negb (z =? 0)) | _ => Err Unmodelled end.
Definition as_q (v : value) : res Q := of_option Unmodelled (num_q v).
Definition as_opt_q (v : value) : res (option Q) :=
  match v with VNone => Ok None | _ => let* q := as_q v in Ok (Some q) end.
(** [assert isinstance(v, int)] *)
Definition assert_int (v : value) : res Z :=
  match v with VInt z => Ok z | VBool b => Ok (if b then 1 else 0) | _ => Err AssertionError end.
(** [assert isinstance(v, int) or v == math.inf] *)
Definition assert_ext (v : value) : res ext :=
  match v with
  | VInt z => Ok (Fin z)
  | VBool b => Ok (Fin (if b then 1 else 0))
  | VInf false => Ok Inf
  | _ => Err AssertionError
  end.
(** A number of uses or a duration that is not checked. *)
Definition as_ext (v : value) : res ext :=
  match v with VInt z => Ok (Fin z) | VInf false => Ok Inf | _ => Err Unmodelled end.
Definition as_z (v : value) : res Z := match v with VInt z => Ok z | _ => Err Unmodelled end.
Definition as_str (v : value) : res string := match v with VStr s => Ok s | _ => Err Unmodelled end.
Definition as_forced (v : value) : res forced := match v with VForced f => Ok f | _ => Err Unmodelled end.
Definition as_dclass (v : value) : res dclass := match v with VDClass c => Ok c | _ => Err Unmodelled end.
(** [assert isinstance(v, tuple)], of strings *)
Definition assert_strs (v : value) : res (list string) :=
  match v with VTup l => mapM as_str l | _ => Err AssertionError end.
Definition as_strs (v : value) : res (list string) :=
  match v with VTup l => mapM as_str l | _ => Err Unmodelled end.

(** simulator/specs/damage_spec.py lines 6-18 *)
Definition mk_damage (args : list value) (kws : kwargs) : res value :=
  let* k := bind_fields ["potency"; "damage_class"; "guaranteed_crit"; "guaranteed_dh";
                         "trait_damage_mult_override"; "pet_job_mod_override"; "pet_scalar";
                         "use_min_potency"; "single_damage_mult"] args kws in
  let* p := as_q (field "potency" k VNone) in
  let* dc := as_dclass (field "damage_class" k (VDClass DC_DIRECT)) in
  let* gc := as_forced (field "guaranteed_crit" k (VForced F_DEFAULT)) in
  let* gd := as_forced (field "guaranteed_dh" k (VForced F_DEFAULT)) in
  let* tr := as_opt_q (field "trait_damage_mult_override" k VNone) in
  let* pj := as_opt_q (field "pet_job_mod_override" k VNone) in
  let* ps := as_q (field "pet_scalar" k (VFloat 1)) in
  let* um := as_opt_q (field "use_min_potency" k VNone) in
  let* sm := as_q (field "single_damage_mult" k (VInt 1)) in
  Ok (VDamage (mkDamage p dc gc gd tr pj ps um sm)).

(** simulator/specs/timing_spec.py lines 5-25; GameConsts.GCD_RECAST_TIME = 2500 *)
Definition mk_timing (args : list value) (kws : kwargs) : res value :=
  let* k := bind_fields ["base_cast_time"; "gcd_base_recast_time"; "animation_lock";
                         "application_delay"; "affected_by_speed_stat";
                         "affected_by_haste_buffs"] args kws in
  let* ct := required "base_cast_time" k in
  let gcd := match field "gcd_base_recast_time" k VNone with VNone => VInt 2500 | v => v end in
  let* c := assert_int ct in
  let* g := assert_int gcd in
  let* d := assert_int (field "application_delay" k (VInt 0)) in
  let* l := assert_int (field "animation_lock" k (VInt 650)) in
  let* s := as_bool (field "affected_by_speed_stat" k (VBool true)) in
  let* h := as_bool (field "affected_by_haste_buffs" k (VBool true)) in
  Ok (VTiming (mkTiming c g l d s h)).

(** simulator/specs/status_effect_spec.py lines 8-64 *)
Definition mk_status (args : list value) (kws : kwargs) : res value :=
  let* k := bind_fields ["duration"; "max_duration"; "num_uses"; "max_num_uses"; "crit_rate_add";
                         "dh_rate_add"; "damage_mult"; "main_stat_add"; "main_stat_mult";
                         "auto_attack_delay_reduction"; "haste_time_reduction";
                         "flat_cast_time_reduction"; "flat_gcd_recast_time_reduction";
                         "extends_existing_duration"; "expires_status_effects";
                         "skill_allowlist"; "guaranteed_crit"; "guaranteed_dh";
                         "add_to_skill_modifier_condition"; "extend_only"; "is_party_effect";
                         "clear_all_status_effects"] args kws in
  let dur := field "duration" k (VInt 0) in
  let mdur := match field "max_duration" k VNone with VNone => dur | v => v end in
  let nu := field "num_uses" k (VInf false) in
  let mnu := match field "max_num_uses" k VNone with VNone => nu | v => v end in
  let* d := assert_ext dur in
  let* md := assert_ext mdur in
  let* fc := assert_ext (field "flat_cast_time_reduction" k (VInt 0)) in
  let* ex := assert_strs (field "expires_status_effects" k (VTup [])) in
  let* al := match field "skill_allowlist" k VNone with
             | VNone => Ok None
             | v => let* l := assert_strs v in Ok (Some l)
             end in
  let* n := as_ext nu in
  let* mn := as_ext mnu in
  let* cr := as_q (field "crit_rate_add" k (VInt 0)) in
  let* dh := as_q (field "dh_rate_add" k (VInt 0)) in
  let* dm := as_q (field "damage_mult" k (VInt 1)) in
  let* ma := as_q (field "main_stat_add" k (VInt 0)) in
  let* mm := as_q (field "main_stat_mult" k (VInt 1)) in
  let* aa := as_q (field "auto_attack_delay_reduction" k (VInt 0)) in
  let* ht := as_q (field "haste_time_reduction" k (VInt 0)) in
  let* fg := as_z (field "flat_gcd_recast_time_reduction" k (VInt 0)) in
  let* ee := as_bool (field "extends_existing_duration" k (VBool true)) in
  let* gc := as_forced (field "guaranteed_crit" k (VForced F_DEFAULT)) in
  let* gd := as_forced (field "guaranteed_dh" k (VForced F_DEFAULT)) in
  let* ac := as_bool (field "add_to_skill_modifier_condition" k (VBool false)) in
  let* eo := as_bool (field "extend_only" k (VBool false)) in
  let* pe := as_bool (field "is_party_effect" k (VBool false)) in
  let* ca := as_bool (field "clear_all_status_effects" k (VBool false)) in
  Ok (VStatus (mkStatus d md n mn cr dh dm ma mm aa ht fc fg ee ex al gc gd ac eo pe ca)).

(** simulator/specs/channeling_spec.py lines 6-17 *)
Definition mk_chan (args : list value) (kws : kwargs) : res value :=
  let* k := bind_fields ["duration"; "skill_allowlist"; "num_uses"] args kws in
  let* d := assert_ext (field "duration" k (VInt 0)) in
  let* al := assert_strs (field "skill_allowlist" k (VTup [])) in
  let* n := as_ext (field "num_uses" k (VInf false)) in
  Ok (VChan (mkChanneling d al n)).

(** simulator/specs/combo_spec.py lines 5-9 *)
Definition mk_combo (args : list value) (kws : kwargs) : res value :=
  let* k := bind_fields ["combo_actions"; "combo_group"; "combo_auto_succeed";
                         "break_all_combos_only"] args kws in
  let* a := as_strs (field "combo_actions" k (VTup [])) in
  let* g := as_z (field "combo_group" k (VInt 0)) in
  let* s := as_bool (field "combo_auto_succeed" k (VBool false)) in
  let* b := as_bool (field "break_all_combos_only" k (VBool false)) in
  Ok (VCombo (mkCombo a g s b)).

(** simulator/specs/job_resource_spec.py lines 6-17 *)
Definition as_change (v : value) : res change :=
  match v with VInt z => Ok (Change z) | VInf true => Ok ChangeNegInf | _ => Err Unmodelled end.
Definition mk_jr (args : list value) (kws : kwargs) : res value :=
  let* k := bind_fields ["name"; "change"; "duration"; "refreshes_duration_of_last_gained";
                         "clear_all_resources_only"] args kws in
  let* n := as_str (field "name" k (VStr "")) in
  let* c := as_change (field "change" k (VInt 0)) in
  let* d := as_ext (field "duration" k (VInf false)) in
  let* r := as_bool (field "refreshes_duration_of_last_gained" k (VBool false)) in
  let* a := as_bool (field "clear_all_resources_only" k (VBool false)) in
  Ok (VJr (mkJr n c d r a)).

(** simulator/specs/job_resource_settings.py lines 6-15 *)
Definition mk_jrs (args : list value) (kws : kwargs) : res value :=
  let* k := bind_fields ["max_value"; "skill_allowlist"; "expiry_from_last_gain";
                         "add_number_to_conditional"] args kws in
  let* al := assert_strs (field "skill_allowlist" k (VTup [])) in
  let* m := as_z (field "max_value" k (VInt 0)) in
  let* e := as_ext (field "expiry_from_last_gain" k (VInf false)) in
  let* a := as_bool (field "add_number_to_conditional" k (VBool true)) in
  Ok (VJrs (mkJrSettings m al e a)).

(** simulator/specs/follow_up.py lines 6-24 *)
Definition mk_fu (args : list value) (kws : kwargs) : res value :=
  let* k := bind_fields ["skill"; "delay_after_parent_application"; "snapshot_buffs_with_parent";
                         "snapshot_debuffs_with_parent"; "dot_duration";
                         "primary_target_only"] args kws in
  let* s := required "skill" k in
  let* sk := match s with VSkill sk _ => Ok sk | _ => Err Unmodelled end in
  let* dl := required "delay_after_parent_application" k in
  let* d := match dl with VNone => Err TypeError | _ => assert_int dl end in
  let* _ := if 0 <=? d then Ok tt else Err AssertionError in
  let* dot := match field "dot_duration" k VNone with
              | VNone => Ok None
              | v => let* n := assert_int v in Ok (Some n)
              end in
  let* sb := as_bool (field "snapshot_buffs_with_parent" k (VBool true)) in
  let* sd := as_bool (field "snapshot_debuffs_with_parent" k (VBool true)) in
  let* po := as_bool (field "primary_target_only" k (VBool true)) in
  Ok (VFu (mkFollowUp sk d sb sd dot po)).

(** The keys of a dict given to Skill: [len(key)] of a non-string fails. *)
Definition str_keys {A} (conv : value -> res A) (d : list (value * value)) : res (dict A) :=
  mapM (fun kv => let* k := match fst kv with VStr s => Ok s | _ => Err TypeError end in
                  let* v := conv (snd kv) in Ok (k, v)) d.
(** A field that is None, a spec or a dict of specs and Nones. *)
Definition as_rspec {A} (conv : value -> res A) (v : value) : res (rspec A) :=
  match v with
  | VNone => Ok RNone
  | VDict d =>
      let* d' := str_keys (fun v => match v with
                                    | VNone => Ok None
                                    | _ => let* a := conv v in Ok (Some a)
                                    end) d in
      Ok (RDict d')
  | _ => let* a := conv v in Ok (ROne a)
  end.
(** A field checked by Skill.__verify_dict_or_tuple (skill.py lines 74-87). *)
Definition as_tspec {A} (conv : value -> res A) (v : value) : res (tspec A) :=
  match v with
  | VTup l =>
      let* l' := mapM (fun x => match conv x with Ok a => Ok a | Err _ => Err AssertionError end) l in
      Ok (TTuple l')
  | VDict d =>
      let* d' := str_keys (fun v => match v with VTup l => mapM conv l | _ => Err AssertionError end) d in
      Ok (TDict (canonicalize_dict d'))
  | _ => Err AssertionError
  end.
Definition as_damage (v : value) : res damage_spec := match v with VDamage d => Ok d | _ => Err Unmodelled end.
Definition as_timing (v : value) : res timing_spec := match v with VTiming d => Ok d | _ => Err Unmodelled end.
Definition as_status (v : value) : res status_spec := match v with VStatus d => Ok d | _ => Err Unmodelled end.
Definition as_jr (v : value) : res jr_spec := match v with VJr d => Ok d | _ => Err Unmodelled end.
Definition as_combo (v : value) : res combo_spec := match v with VCombo d => Ok d | _ => Err Unmodelled end.
(** A None in a tuple fails the check of [as_tspec]; in a dict of tuples it passes
    and [follow_up.skill] fails in __set_status_effect_stats (lines 108-114; here
    before the remaining checks of __post_init__). *)
Definition as_fu (v : value) : res follow_up :=
  match v with VFu d => Ok d | VNone => Err AttributeError | _ => Err Unmodelled end.

(** simulator/skills/skill.py lines 21-45 and __post_init__, lines 162-228.
    [is_GCD=None] is kept as false (it is only tested for truth). *)
Definition mk_skill (args : list value) (kws : kwargs) : res value :=
  let* k := bind_fields ["name"; "damage_spec"; "timing_spec"; "buff_spec"; "debuff_spec";
                         "channeling_spec"; "job_resource_spec"; "combo_spec";
                         "status_effect_denylist"; "is_GCD";
                         "ignored_conditions_for_bonus_potency"; "job_resources_snapshot";
                         "follow_up_skills"; "has_aoe"; "aoe_dropoff";
                         "off_class_default_condition"] args kws in
  let* nv := required "name" k in
  let* n := match nv with VStr s => Ok s | _ => Err AssertionError end in
  let* fu := as_tspec as_fu (field "follow_up_skills" k (VTup [])) in
  let* co := as_tspec as_combo (field "combo_spec" k (VTup [])) in
  let* jr := as_tspec as_jr (field "job_resource_spec" k (VTup [])) in
  let* dl := assert_strs (field "status_effect_denylist" k (VTup [])) in
  let* drop := as_opt_q (field "aoe_dropoff" k VNone) in
  let* rd := as_rspec as_damage (field "damage_spec" k VNone) in
  let* dmg := post_init_damage rd drop in
  let* tm := as_rspec as_timing (field "timing_spec" k VNone) in
  let* bu := as_rspec as_status (field "buff_spec" k VNone) in
  let* de := as_rspec as_status (field "debuff_spec" k VNone) in
  let* ch := match field "channeling_spec" k VNone with
             | VNone => Ok CNone
             | VChan c => Ok (COne c)
             | _ => Err Unmodelled
             end in
  let* gcd := match field "is_GCD" k VNone with
              | VNone => Ok false
              | v => as_bool v
              end in
  let* ig := as_strs (field "ignored_conditions_for_bonus_potency" k (VTup [])) in
  let* js := as_bool (field "job_resources_snapshot" k (VBool true)) in
  let* oc := as_str (field "off_class_default_condition" k (VStr "")) in
  Ok (VSkill (mkSkill n dmg (canonicalize_spec tm) (canonicalize_spec bu) (canonicalize_spec de)
                ch jr co dl gcd ig js fu oc) drop).

(** [range(a, b)] and [range(a, b, step)] for a positive step *)
Fixpoint zrange (fuel : nat) (a b step : Z) : list value :=
  match fuel with
  | O => []
  | S f => if a <? b then VInt a :: zrange f (a + step) b step else []
  end.
(** [max]/[min] of two numbers: Python returns the first of two equal ones. *)
Definition val_max (a b : value) : res value :=
  match a, b with
  | VInt x, VInt y => Ok (VInt (Z.max x y))
  | _, _ => Err Unmodelled
  end.
Definition val_min (a b : value) : res value :=
  match a, b with
  | VInt x, VInt y => Ok (VInt (Z.min x y))
  | _, _ => Err Unmodelled
  end.

(** Functions called by name. *)
Definition call (f : string) (args : list value) (kws : kwargs) : res value :=
  if String.eqb f "Skill" then mk_skill args kws
  else if String.eqb f "DamageSpec" then mk_damage args kws
  else if String.eqb f "TimingSpec" then mk_timing args kws
  else if String.eqb f "StatusEffectSpec" then mk_status args kws
  else if String.eqb f "FollowUp" then mk_fu args kws
  else if String.eqb f "ComboSpec" then mk_combo args kws
  else if String.eqb f "JobResourceSpec" then mk_jr args kws
  else if String.eqb f "JobResourceSettings" then mk_jrs args kws
  else if String.eqb f "ChannelingSpec" then mk_chan args kws
  else if String.eqb f "tuple" then
    match args, kws with
    | [], [] => Ok (VTup [])
    | [a], [] => let* l := val_iter a in Ok (VTup l)
    | _, _ => Err Unmodelled
    end
  else if String.eqb f "int" then
    match args, kws with
    | [VInt z], [] => Ok (VInt z)
    | [VFloat q], [] => Ok (VInt (qtrunc q))
    | [VNone], [] => Err TypeError
    | _, _ => Err Unmodelled
    end
  else if String.eqb f "range" then
    match args, kws with
    | [VInt a; VInt b], [] => Ok (VList (zrange (Z.to_nat (b - a)) a b 1))
    | [VInt a; VInt b; VInt s], [] =>
        if 0 <? s then Ok (VList (zrange (Z.to_nat (b - a)) a b s)) else Err Unmodelled
    | _, _ => Err Unmodelled
    end
  else if String.eqb f "max" then
    match args, kws with [a; b], [] => val_max a b | _, _ => Err Unmodelled end
  else if String.eqb f "min" then
    match args, kws with [a; b], [] => val_min a b | _, _ => Err Unmodelled end
  else Err Unmodelled.

(** Named constants: sim_consts.py line 6, game_consts.py line 12, the enums. *)
Definition const (x : string) : res value :=
  if String.eqb x "SimConsts.DEFAULT_CONDITION" then Ok (VStr "")
  else if String.eqb x "math.inf" then Ok (VInf false)
  else if String.eqb x "np.inf" then Ok (VInf false)
  else if String.eqb x "GameConsts.DAMAGE_SNAPSHOT_TIME_BEFORE_CAST_FINISHES" then Ok (VInt 500)
  else if String.eqb x "ForcedCritOrDH.DEFAULT" then Ok (VForced F_DEFAULT)
  else if String.eqb x "ForcedCritOrDH.FORCE_YES" then Ok (VForced F_YES)
  else if String.eqb x "ForcedCritOrDH.FORCE_NO" then Ok (VForced F_NO)
  else if String.eqb x "DamageClass.DIRECT" then Ok (VDClass DC_DIRECT)
  else if String.eqb x "DamageClass.PET" then Ok (VDClass DC_PET)
  else if String.eqb x "DamageClass.AUTO" then Ok (VDClass DC_AUTO)
  else if String.eqb x "DamageClass.PHYSICAL_DOT" then Ok (VDClass DC_PHYSICAL_DOT)
  else if String.eqb x "DamageClass.MAGICAL_DOT" then Ok (VDClass DC_MAGICAL_DOT)
  else Err Unmodelled.

(** ** Data tables: simulator/game_data/specific_skills.py *)

(** utils.py lines 10-28 on a table keyed by version literals, for a version at
    position [r]. *)
Fixpoint best_version {V} (r : Z) (best : option (vlit * V)) (d : list (vlit * V)) : option V :=
  match d with
  | [] => option_map snd best
  | (v, x) :: d' =>
      let take := (vlit_pos v <=? r) && match best with
                                        | None => true
                                        | Some (b, _) => vlit_pos b <? vlit_pos v
                                        end in
      best_version r (if take then Some (v, x) else best) d'
  end.

(** Lines 20-32; [Ok None] is Python's None. *)
Definition find_data (r : Z) (l : lrank) (t : data_table) (skill param : string) : res (option expr) :=
  let* sk := of_option AssertionError (dget skill t) in
  let* lv := of_option AssertionError (match lev_key l with Some k => zget k sk | None => None end) in
  let* pv := of_option AssertionError (dget param lv) in
  Ok (best_version r None pv).

(** ** Evaluation *)

Definition env := dict value.
Definition lookup_var (x : string) (en : env) : res value := of_option Unmodelled (dget x en).
(** [self.x] lives in the environment under the name "self.x". *)
Definition self_name (x : string) : string := ("self." ++ x)%string.
Definition self_part (en : env) : env := filter (fun kv => prefix "self." (fst kv)) en.

Fixpoint find_method (f : string) (ms : list pmethod) : option pmethod :=
  match ms with
  | [] => None
  | m :: ms' => if String.eqb (m_name m) f then Some m else find_method f ms'
  end.

(** Assign loop variables. *)
Fixpoint bind_vars (xs : list string) (vs : list value) (en : env) : res env :=
  match xs, vs with
  | [], [] => Ok en
  | x :: xs', v :: vs' => bind_vars xs' vs' (dset x v en)
  | _, _ => Err ValueError
  end.

Section Eval.
  Context (r : Z) (l : lrank) (cls : pclass).

  (** Parameters: positional, then keywords, then defaults (which are constants). *)
  Definition bind_params (ev : expr -> res value) (m : pmethod) (args : list value)
      (kws : kwargs) : res env :=
    let* k := bind_fields (map fst (m_params m)) args kws in
    mapM (fun p => let* v := match dget (fst p) k with
                             | Some v => Ok v
                             | None => match snd p with
                                       | Some d => ev d
                                       | None => Err TypeError
                                       end
                             end in
                   Ok (fst p, v)) (m_params m).

  Fixpoint eval (n : nat) (en : env) (e : expr) {struct n} : res value :=
    match n with
    | O => Err OutOfFuel
    | S n =>
        let data s p :=
          let* vs := eval n en s in
          let* vp := p in
          let* ss := as_str vs in
          let* o := find_data r l (c_data cls) ss vp in
          match o with None => Ok VNone | Some x => eval n [] x end in
        let pot e0 s p :=
          let* v := data s (Ok p) in
          match v with VNone => Err e0 | _ => Ok v end in
        match e with
        | ENone => Ok VNone
        | EBool b => Ok (VBool b)
        | EInt z => Ok (VInt z)
        | EFlt a b => Ok (VFloat (dec a b))
        | EStr s => Ok (VStr s)
        | EVar x => lookup_var x en
        | EConst x => const x
        | ESelf x => lookup_var (self_name x) en
        | ETup es => let* vs := mapM (eval n en) es in Ok (VTup vs)
        | EList es => let* vs := mapM (eval n en) es in Ok (VList vs)
        | EDict es =>
            let* d := foldM (fun d kv => let* k := eval n en (fst kv) in
                                         let* v := eval n en (snd kv) in
                                         Ok (vset k v d)) es [] in
            Ok (VDict d)
        | EBin o a b => let* x := eval n en a in let* y := eval n en b in val_bin o x y
        | ENeg a => let* x := eval n en a in val_neg x
        | EPos a => let* x := eval n en a in val_pos x
        | EIf c a b => let* x := eval n en c in if truthy x then eval n en a else eval n en b
        | EOr a b => let* x := eval n en a in if truthy x then Ok x else eval n en b
        | EVer o v => Ok (VBool (cmp_bool o (r ?= vlit_pos v)))
        | ELev OLt k => Ok (VBool (lev_ltb l k))
        | ELev OGe k => Ok (VBool (negb (lev_ltb l k)))
        | ELev _ _ => Err Unmodelled
        | ECmp o a b => let* x := eval n en a in let* y := eval n en b in val_cmp o x y
        | EFmt es =>
            let* ss := mapM (fun e => let* v := eval n en e in val_str v) es in
            Ok (VStr (String.concat "" ss))
        | EIdx a i => let* x := eval n en a in let* y := eval n en i in val_idx x y
        | EKeys a =>
            let* x := eval n en a in
            match x with VDict d => Ok (VTup (map fst d)) | VNone => Err AttributeError | _ => Err Unmodelled end
        | EItems a =>
            let* x := eval n en a in
            match x with
            | VDict d => Ok (VTup (map (fun kv => VTup [fst kv; snd kv]) d))
            | VNone => Err AttributeError
            | _ => Err Unmodelled
            end
        | ECall f args kws =>
            let* vs := mapM (eval n en) args in
            let* ks := mapM (fun kv => let* v := eval n en (snd kv) in Ok (fst kv, v)) kws in
            call f vs ks
        | EMeth f args kws =>
            let* vs := mapM (eval n en) args in
            let* ks := mapM (fun kv => let* v := eval n en (snd kv) in Ok (fst kv, v)) kws in
            let* m := of_option AttributeError (find_method f (c_methods cls)) in
            let* ps := bind_params (eval n []) m vs ks in
            let* out := exec n (self_part en ++ ps)%list (m_body m) in
            match snd out with Some v => Ok v | None => Ok VNone end
        | EData s p => data s (let* v := eval n en p in as_str v)
        | EPot s => pot ValueError s "potency"
        | EPotNC s => pot AssertionError s "potency_no_combo"
        | EPotNP s => pot AssertionError s "potency_no_pos"
        end
    end
  (** The environment after the statements and the returned value, if any. *)
  with exec (n : nat) (en : env) (ss : list stmt) {struct n} : res (env * option value) :=
    match n with
    | O => Err OutOfFuel
    | S n =>
        match ss with
        | [] => Ok (en, None)
        | s :: rest =>
            let* out :=
              match s with
              | SSkip => Ok (en, None)
              | SAsg x e => let* v := eval n en e in Ok (dset x v en, None)
              | SAttr x e => let* v := eval n en e in Ok (dset (self_name x) v en, None)
              | SSet x path e =>
                  let* v := eval n en e in
                  let* a := lookup_var x en in
                  let* p := mapM (eval n en) path in
                  let* a' := val_set a p v in
                  Ok (dset x a' en, None)
              | SApp x e =>
                  let* a := lookup_var x en in
                  let* v := eval n en e in
                  match a with
                  | VList xs => Ok (dset x (VList (xs ++ [v])) en, None)
                  | _ => Err AttributeError
                  end
              | SIf c a b =>
                  let* v := eval n en c in
                  if truthy v then exec n en a else exec n en b
              | SFor xs unpack e body =>
                  let* v := eval n en e in
                  let* items := val_iter v in
                  foldM (fun st item =>
                    match snd st with
                    | Some _ => Ok st
                    | None =>
                        let* en1 := if unpack
                                    then match item with
                                         | VTup vs => bind_vars xs vs (fst st)
                                         | _ => Err TypeError
                                         end
                                    else bind_vars xs [item] (fst st) in
                        exec n en1 body
                    end) items (en, None)
              | SRet e => let* v := eval n en e in Ok (en, Some v)
              end in
            match snd out with
            | Some _ => Ok out
            | None => exec n (fst out) rest
            end
        end
    end.
End Eval.

(** More than the nesting depth and statement count of any definition. *)
Definition py_fuel : nat := 400.

(** ** GenericJobClass, generic_job_class.py *)

(** Lines 10-22 and convenience_timings.py: the class attributes every job has. *)
Definition generic_attrs : env :=
  [("self.auto_timing_spec", VTiming (mkTiming 0 2500 0 532 true true));
   ("self.instant_timing_spec", VTiming (mkTiming 0 2500 650 0 true true));
   ("self.shot_timing_spec", VTiming (mkTiming 0 2500 0 758 true true));
   ("self._job_class", VStr "")].

(** [XxxSkills(version, level)]: the attributes of the object. *)
Definition new_object (r : Z) (l : lrank) (c : pclass) : res env :=
  let* en := foldM (fun en kv => let* v := eval r l c py_fuel en (snd kv) in
                                 Ok (dset (self_name (fst kv)) v en)) (c_attrs c) generic_attrs in
  let* out := exec r l c py_fuel en (c_init c) in
  Ok (self_part (fst out)).

(** [self.f()] on that object *)
Definition run_method (r : Z) (l : lrank) (c : pclass) (self : env) (f : string) : res value :=
  eval r l c py_fuel self (EMeth f [] []).

(** Lines 40-54: get_skills.  Each skill comes with its declared aoe_dropoff. *)
Definition skills_of (v : value) : res (list (skill * option Q)) :=
  match v with
  | VNone => Ok []
  | VTup vs | VList vs => mapM (fun v => match v with VSkill s d => Ok (s, d) | _ => Err Unmodelled end) vs
  | VSkill s d => Ok [(s, d)]
  | _ => Err TypeError
  end.
Definition get_declared_skills (r : Z) (l : lrank) (c : pclass) (self : env)
  : res (list (skill * option Q)) :=
  let* ls := mapM (fun f => let* v := run_method r l c self f in skills_of v) (c_skills c) in
  Ok (List.concat ls).

(** Lines 69-84: get_resources *)
Definition get_resources (r : Z) (l : lrank) (c : pclass) (self : env)
  : res (list (string * jr_settings)) :=
  let* ls := mapM (fun f =>
    let* v := run_method r l c self f in
    match v with
    | VNone => Ok []
    | VTup [VStr n; VJrs s] => Ok [(n, s)]
    | _ => Err AssertionError
    end) (c_resources c) in
  Ok (List.concat ls).

(** Lines 86-93: overridable, None by default *)
Definition optional_method (r : Z) (l : lrank) (c : pclass) (self : env) (f : string) : res value :=
  match find_method f (c_methods c) with
  | None => Ok VNone
  | Some _ => run_method r l c self f
  end.
Definition get_priority (r : Z) (l : lrank) (c : pclass) (self : env) : res (option (list string)) :=
  let* v := optional_method r l c self "get_status_effect_priority" in
  match v with
  | VNone => Ok None
  | _ => let* p := as_strs v in Ok (Some p)
  end.
Definition get_breakers (r : Z) (l : lrank) (c : pclass) (self : env)
  : res (option (list (Z * list Z))) :=
  let* v := optional_method r l c self "get_combo_breakers" in
  match v with
  | VNone => Ok None
  | VTup vs =>
      let* bs := mapM (fun b => match b with
                                | VTup [VInt g; VTup gs] => let* zs := mapM as_z gs in Ok (g, zs)
                                | _ => Err Unmodelled
                                end) vs in
      Ok (Some bs)
  | _ => Err Unmodelled
  end.
