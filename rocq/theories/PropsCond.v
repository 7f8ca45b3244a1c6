(** * C06-C10: conditions, conditional tables, AoE falloff and version tables *)

From Coq Require Import ZArith QArith List String Ascii Bool Permutation.
From Verif Require Import Base Float Strings Types Lookup SpecCond CondFacts AoeFacts Fixtures.
Import ListNotations.
Open Scope string_scope.

(** ** C06 *)

(** A condition string [p1,p2,...,pn] denotes the set of its trimmed parts. *)
Theorem C06_condition_denotes : forall ps : list string,
  ps <> [] -> (forall p, In p ps -> comma_free p) -> String.concat "," ps <> "" ->
  NoDup (canonicalize (String.concat "," ps))
  /\ forall x, In x (canonicalize (String.concat "," ps)) <-> exists p, In p ps /\ trim_of p x.
Proof. intros ps H1 H2 H3. exact (conj (canonicalize_nodup _) (canonicalize_denotes ps H1 H2 H3)). Qed.
Print Assumptions C06_condition_denotes.

(** Every string has exactly one such decomposition, so the previous theorem is about
    all strings; the empty string denotes the empty set. *)
Theorem C06_every_string_decomposes : forall s : string,
  (exists ps, s = String.concat "," ps /\ ps <> [] /\ forall p, In p ps -> comma_free p)
  /\ canonicalize "" = [].
Proof. intros s. exact (conj (string_decomposes s) eq_refl). Qed.
Print Assumptions C06_every_string_decomposes.

(** The trimmed form of a part is unique and always exists. *)
Theorem C06_trim_unique : forall p, exists! x, trim_of p x.
Proof.
  intros p. exact (ex_intro _ (strip p) (conj (strip_spec p) (fun y H => strip_unique p y H))).
Qed.
Print Assumptions C06_trim_unique.

(** Adding a condition: union, other fields untouched, idempotent, commutative. *)
Theorem C06_add_is_union : forall m c,
  (forall x, In x (sm_cond (add_to_condition m c)) <-> In x (sm_cond m) \/ In x (canonicalize c))
  /\ (NoDup (sm_cond m) -> NoDup (sm_cond (add_to_condition m c)))
  /\ sm_crit (add_to_condition m c) = sm_crit m
  /\ sm_dh (add_to_condition m c) = sm_dh m
  /\ sm_force_combo (add_to_condition m c) = sm_force_combo m
  /\ sm_ignore_cast_times (add_to_condition m c) = sm_ignore_cast_times m
  /\ sm_ignore_application_delay (add_to_condition m c) = sm_ignore_application_delay m
  /\ sm_bonus_percent (add_to_condition m c) = sm_bonus_percent m.
Proof.
  intros m c. split; [exact (add_to_condition_in m c)|]. split; [exact (add_to_condition_nodup m c)|].
  destruct c; repeat split.
Qed.
Print Assumptions C06_add_is_union.

Theorem C06_add_idempotent : forall m c, add_to_condition (add_to_condition m c) c = add_to_condition m c.
Proof. exact add_to_condition_idem. Qed.
Print Assumptions C06_add_idempotent.

Theorem C06_add_commutes : forall m c1 c2,
  same_set (sm_cond (add_to_condition (add_to_condition m c1) c2))
           (sm_cond (add_to_condition (add_to_condition m c2) c1)).
Proof. exact add_to_condition_comm. Qed.
Print Assumptions C06_add_commutes.

Theorem C06_join_round_trip : forall l,
  (forall x, In x l -> comma_free x /\ trimmed x /\ x <> "") ->
  forall x, In x (canonicalize (join ", " l)) <-> In x l.
Proof. exact canonicalize_join. Qed.
Print Assumptions C06_join_round_trip.

(** ** C07 *)

Theorem C07_best_key : forall keys active,
  NoDup active -> distinct_sets keys ->
  ((forall k, In k keys -> ~ incl k active) /\ get_best_key keys active = Ok [""])
  \/ exists k, get_best_key keys active = Ok k /\ best_key keys active k.
Proof. exact get_best_key_spec. Qed.
Print Assumptions C07_best_key.

(** The selected key is determined by the specification. *)
Theorem C07_best_key_unique : forall keys active k1 k2,
  best_key keys active k1 -> best_key keys active k2 -> k1 = k2.
Proof. exact best_key_fun. Qed.
Print Assumptions C07_best_key_unique.

(** The tables the lookups are done in always have distinct keys. *)
Theorem C07_tables_have_distinct_keys : forall V (d : dict V), distinct_sets (map fst (canonicalize_dict d)).
Proof. exact @canonicalize_dict_distinct. Qed.
Print Assumptions C07_tables_have_distinct_keys.

(** Looking up in a table: the entry of the best key; if no key matches, KeyError
    unless the table has a key consisting of white space and commas only. *)
Theorem C07_table_lookup : forall V (d : list (cond * V)) active,
  NoDup active -> distinct_sets (map fst d) ->
  (exists k v, In (k, v) d /\ best_key (map fst d) active k /\ clookup d active = Ok v)
  \/ ((forall k, In k (map fst d) -> ~ incl k active)
      /\ clookup d active = of_option KeyError (cget [""] d)).
Proof. exact @clookup_spec. Qed.
Print Assumptions C07_table_lookup.

Theorem C07_no_match_key_error : forall V (d : list (cond * V)) active,
  NoDup active -> distinct_sets (map fst d) ->
  (forall k, In k (map fst d) -> ~ incl k active) ->
  (forall k, In k (map fst d) -> ~ same_set [""] k) ->
  clookup d active = Err KeyError.
Proof. exact @clookup_no_match. Qed.
Print Assumptions C07_no_match_key_error.

(** ** C08 *)

Theorem C08_default_makes_total : forall A (d : dict (option A)) (m : modifier),
  NoDup (sm_cond m) -> In "" (dkeys d) ->
  exists s v, In (s, v) d /\ incl (canonicalize s) (sm_cond m)
    /\ cspec_get (canonicalize_spec (RDict d)) m = Ok v.
Proof. exact @conditional_total. Qed.
Print Assumptions C08_default_makes_total.

(** ... and no declared condition that holds is more specific than the one used. *)
Theorem C08_most_specific : forall A (d : dict (option A)) (m : modifier) v,
  NoDup (sm_cond m) -> cspec_get (canonicalize_spec (RDict d)) m = Ok v ->
  (exists s, In (s, v) d /\ incl (canonicalize s) (sm_cond m)
     /\ forall s', In s' (dkeys d) -> incl (canonicalize s') (sm_cond m) ->
          (List.length (canonicalize s') <= List.length (canonicalize s))%nat)
  \/ ((forall s, In s (dkeys d) -> ~ incl (canonicalize s) (sm_cond m))
      /\ exists s, In (s, v) d /\ same_set (canonicalize s) [""]).
Proof. exact @conditional_best. Qed.
Print Assumptions C08_most_specific.

(** Tables of tuples (combos, job resources, follow-ups). *)
Theorem C08_tuple_tables : forall A (d : dict (list A)) (m : modifier),
  NoDup (sm_cond m) -> In "" (dkeys d) ->
  exists s v, In (s, v) d /\ incl (canonicalize s) (sm_cond m)
    /\ tspec_get (TDict (canonicalize_dict d)) m = Ok v.
Proof. exact @tuple_total. Qed.
Print Assumptions C08_tuple_tables.

Theorem C08_plain_spec : forall A (a : A) (l : list A) m,
  cspec_get (canonicalize_spec (ROne a)) m = Ok (Some a) /\ tspec_get (TTuple l) m = Ok l
  /\ cspec_get (canonicalize_spec (@RNone A)) m = Ok None
  /\ tspec_get (TDict (canonicalize_dict (@nil (string * list A)))) m = Ok [].
Proof. exact (fun A a l m => conj eq_refl (conj eq_refl (conj eq_refl eq_refl))). Qed.
Print Assumptions C08_plain_spec.

(** Every modifier the API can build has a duplicate-free condition set. *)
Theorem C08_modifiers_are_sets : forall c0 cs,
  NoDup (sm_cond (fold_left (fun m (ac : bool * string) =>
     if fst ac then add_to_condition m (snd ac) else remove_from_condition m (snd ac)) cs (modifier_with c0))).
Proof. exact modifiers_nodup. Qed.
Print Assumptions C08_modifiers_are_sets.

(** The property fails for channeling specs: a table of them can never be used. *)
Theorem C08_channeling_table_refuted : forall s kv d m,
  sk_channeling s = CDict (kv :: d) -> get_channeling_spec s m = Err AttributeError.
Proof. intros s kv d m E. unfold get_channeling_spec. rewrite E. reflexivity. Qed.
Print Assumptions C08_channeling_table_refuted.

(** ** C09 *)

(** The full property: every target after the first receives (1-d) times the potency. *)
Definition falloff_everywhere (r : rspec damage_spec) (d : Q) : Prop :=
  forall c, post_init_damage r (Some d) = Ok c ->
  forall m sp n, (2 <= n)%Z ->
    cspec_get (canonicalize_spec r) m = Ok (Some sp) ->
    exists sp', cspec_get c (add_to_condition m ("Target " ++ string_of_Z n)) = Ok (Some sp')
      /\ potency sp' = fmul (fsub 1 d) (potency sp).

(** It is false for every skill whose damage is a single spec and whose potency the
    falloff would change ... *)
Theorem C09_single_spec_refuted : forall sp d,
  post_init_damage (ROne sp) (Some d) = Ok (COne sp)
  /\ (potency sp <> fmul (fsub 1 d) (potency sp) -> ~ falloff_everywhere (ROne sp) d).
Proof. exact single_spec_no_falloff. Qed.
Print Assumptions C09_single_spec_refuted.

(** ... and for the tenth and later targets of every tabulated skill.  For the
    targets 2 to 9 of a tabulated skill it holds under every condition, and the first
    target always gets the full potency. *)
Theorem C09_table_partial : forall tbl d,
  distinct_sets (map canonicalize (dkeys tbl)) ->
  (forall k n, In k (dkeys tbl) -> (1 <= n)%Z -> ~ In ("Target " ++ string_of_Z n) (canonicalize k)) ->
  (forall k v, In (k, v) tbl -> v <> None) ->
  In "" (dkeys tbl) ->
  exists c, post_init_damage (RDict tbl) (Some d) = Ok c
    /\ forall m, NoDup (sm_cond m) ->
         (forall n, (1 <= n)%Z -> ~ In ("Target " ++ string_of_Z n) (sm_cond m)) ->
         exists sp,
           cspec_get (canonicalize_spec (RDict tbl)) m = Ok (Some sp)
           /\ cspec_get c m = Ok (Some sp)
           /\ forall n, (1 <= n)%Z ->
                cspec_get c (add_to_condition m ("Target " ++ string_of_Z n))
                = Ok (Some (if (2 <=? n)%Z && (n <=? 9)%Z
                            then set_potency sp (fmul (fsub 1 d) (potency sp)) else sp)).
Proof. exact (fun tbl d H1 H2 H3 H4 => aoe_falloff tbl d (conj H1 (conj H2 (conj H3 H4)))). Qed.
Print Assumptions C09_table_partial.

(** ** C10 *)

Definition newest_not_after {V} (d : dict V) (version k : string) : Prop :=
  In k (dkeys d) /\ String.leb k version = true
  /\ forall k', In k' (dkeys d) -> String.leb k' version = true -> String.leb k' k = true.

Theorem C10_version_lookup : forall V (d : dict V) version,
  (forall v, get_greatest_dict_val d version = Some v
     <-> exists k, newest_not_after d version k /\ dget k d = Some v)
  /\ (get_greatest_dict_val d version = None <-> forall k, In k (dkeys d) -> String.leb k version = false).
Proof. exact @version_lookup. Qed.
Print Assumptions C10_version_lookup.

Theorem C10_order_independent : forall V (d d' : dict V) version,
  NoDup (dkeys d) -> Permutation d d' ->
  get_greatest_dict_val d version = get_greatest_dict_val d' version.
Proof. exact @version_lookup_perm. Qed.
Print Assumptions C10_order_independent.

(** The order is that of strings, not of patch numbers: patch 10.0 would find nothing
    in a table that starts at 6.55. *)
Theorem C10_numeric_order_refuted : exists (d : dict Z),
  dkeys d = ["6.55"; "7.0"] /\ get_greatest_dict_val d "10.0" = None.
Proof. exists [("6.55", 1%Z); ("7.0", 2%Z)]. vm_compute. auto. Qed.
Print Assumptions C10_numeric_order_refuted.

(** ** Examples *)

Example ex_parts : canonicalize " No Combo ,No Positional,No Combo" = ["No Combo"; "No Positional"].
Proof. vm_compute. reflexivity. Qed.
Definition ex_table : dict (option damage_spec) :=
  [("", Some (fx_damage 400)); ("No Combo", Some (fx_damage 100)); ("No Positional", Some (fx_damage 200));
   ("No Combo, No Positional", Some (fx_damage 50))].
Example ex_distinct : distinct_sets (map canonicalize (dkeys ex_table)).
Proof. apply distinct_sets_dec. vm_compute. reflexivity. Qed.
Example ex_no_targets : forall k n, In k (dkeys ex_table) -> (1 <= n)%Z ->
  ~ In ("Target " ++ string_of_Z n) (canonicalize k).
Proof.
  intros k n H _ I. cbn in H.
  repeat (destruct H as [<-|H]; [vm_compute in I; repeat (destruct I as [I|I]; [discriminate I|]); destruct I|]).
  destruct H.
Qed.
Example ex_lookup :
  match cspec_get (canonicalize_spec (RDict ex_table)) (modifier_with "No Positional, Buffed") with
  | Ok (Some sp) => potency sp = 200%Q | _ => False end.
Proof. vm_compute. reflexivity. Qed.
Example ex_falloff :
  match post_init_damage (RDict ex_table) (Some (dec 6 10)) with
  | Ok c => match cspec_get c (modifier_with "No Combo, Target 3") with
            | Ok (Some sp) => Qeq_bool (potency sp) 40 | _ => false end
  | Err _ => false end = true.
Proof. vm_compute. reflexivity. Qed.
Example ex_falloff_changes : potency (fx_damage 400) <> fmul (fsub 1 (dec 6 10)) (potency (fx_damage 400)).
Proof. vm_compute. discriminate. Qed.
Example ex_version : get_greatest_dict_val [("7.0", 2%Z); ("6.55", 1%Z); ("7.05", 3%Z)] "7.01" = Some 2%Z.
Proof. vm_compute. reflexivity. Qed.
Example ex_no_match : clookup [(["A"], 1%Z)] ["B"] = Err KeyError.
Proof. vm_compute. reflexivity. Qed.
