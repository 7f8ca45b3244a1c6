(** * Deciding the claims about shipped skills *)

From Coq Require Import ZArith QArith Arith List String Bool Lia.
From Verif Require Import Base BaseFacts Strings Types Lookup SpecCond CondFacts SpecGame Library Py GameLib.
Import ListNotations.
Open Scope string_scope.
Open Scope Z_scope.

(** ** All parts of a skill *)

Fixpoint all_parts (n : nat) (p : skill -> bool) (s : skill) : bool :=
  match n with
  | O => false
  | S n => p s && forallb (fun fu => all_parts n p (fu_skill fu)) (follow_ups_of s)
  end.
Lemma all_parts_sound p t s : part_of t s -> forall n, all_parts n p s = true -> p t = true.
Proof.
  induction 1 as [s|s fu t I _ IH]; intros [|n] H; try discriminate; cbn in H;
    apply andb_true_iff in H as [H1 H2].
  - exact H1.
  - rewrite forallb_forall in H2. apply (IH n). apply H2, I.
Qed.

Fixpoint some_part (n : nat) (p : skill -> bool) (s : skill) : bool :=
  match n with
  | O => false
  | S n => p s || existsb (fun fu => some_part n p (fu_skill fu)) (follow_ups_of s)
  end.
Lemma some_part_sound p : forall n s, some_part n p s = true -> exists t, part_of t s /\ p t = true.
Proof.
  induction n as [|n IH]; intros s H; [discriminate|]. cbn in H. apply orb_true_iff in H as [H|H].
  - exists s. split; [constructor | exact H].
  - apply existsb_exists in H as (fu & I & H). destruct (IH _ H) as (t & P & T).
    exists t. split; [|exact T]. econstructor; eauto.
Qed.

(** ** Lookups succeed *)

Definition table_ok {V} (d : list (cond * V)) : bool :=
  distinct_setsb (map fst d) && existsb (fun kv => match fst kv with [] => true | _ => false end) d.
Lemma table_ok_lookup {V} (d : list (cond * V)) wc :
  table_ok d = true -> NoDup wc -> exists k v, In (k, v) d /\ clookup d wc = Ok v.
Proof.
  unfold table_ok. rewrite andb_true_iff. intros [D E] N. apply distinct_sets_dec in D.
  destruct (clookup_spec d wc N D) as [(k & v & I & _ & L)|[F _]]; [eauto|].
  exfalso. apply existsb_exists in E as ([k v] & I & E). cbn in E. destruct k; [|discriminate].
  apply (F []); [apply in_map_iff; exists ([], v); auto|]. intros x [].
Qed.
Definition cspec_ok {A} (c : cspec A) : bool := match c with CDict d => table_ok d | _ => true end.
Definition tspec_ok {A} (t : tspec A) : bool :=
  match t with TDict [] => true | TDict d => table_ok d | _ => true end.
Lemma cspec_ok_get {A} (c : cspec A) m : cspec_ok c = true -> NoDup (sm_cond m) -> exists o, cspec_get c m = Ok o.
Proof.
  destruct c as [|a|d]; cbn; intros H N; eauto.
  destruct (table_ok_lookup d (sm_cond m) H N) as (k & v & _ & E). eauto.
Qed.
Lemma tspec_ok_get {A} (t : tspec A) m : tspec_ok t = true -> NoDup (sm_cond m) -> exists l, tspec_get t m = Ok l.
Proof.
  destruct t as [l|d]; cbn; intros H N; eauto. destruct d as [|kv d]; [eauto|].
  destruct (table_ok_lookup (kv :: d) (sm_cond m) H N) as (k & v & _ & E). eauto.
Qed.
Definition chan_ok (s : skill) : bool := match sk_channeling s with CDict _ => false | _ => true end.

(** [strict]: also the follow-ups *)
Definition lookups_ok (strict : bool) (s : skill) : bool :=
  cspec_ok (sk_damage s) && cspec_ok (sk_timing s) && cspec_ok (sk_buff s) && cspec_ok (sk_debuff s)
  && tspec_ok (sk_job_resource s) && tspec_ok (sk_combo s)
  && (negb strict || tspec_ok (sk_follow_ups s)) && chan_ok s.

Lemma lookups_ok_sound b s m :
  lookups_ok b s = true -> NoDup (sm_cond m) ->
  all_lookups_succeed s m /\ (b = true -> exists f, get_follow_up_skills s m = Ok f).
Proof.
  unfold lookups_ok, all_lookups_succeed. rewrite !andb_true_iff.
  intros [[[[[[[H1 H2] H3] H4] H5] H6] H7] H8] N. split.
  - repeat split; try (apply cspec_ok_get; assumption); try (apply tspec_ok_get; assumption).
    unfold chan_ok in H8. unfold get_channeling_spec. destruct (sk_channeling s); eauto. discriminate.
  - intros ->. cbn in H7. apply tspec_ok_get; assumption.
Qed.

(** ** Numbers *)

Definition timing_okb (t : timing_spec) : bool :=
  (0 <=? base_cast_time t) && (0 <=? gcd_base_recast t) && (0 <=? animation_lock t) && (0 <=? application_delay t).
Lemma timing_okb_sound t : timing_okb t = true -> sane_timing t.
Proof. unfold timing_okb, sane_timing. rewrite !andb_true_iff, !Z.leb_le. tauto. Qed.

Definition qpos (q : Q) : bool := negb (Qle_bool q 0).
Lemma qpos_sound q : qpos q = true -> (0 < q)%Q.
Proof.
  unfold qpos. intros H. apply negb_true_iff in H. apply Qnot_le_lt. intros L.
  apply Qle_bool_iff in L. congruence.
Qed.
Definition qlt1 (q : Q) : bool := negb (Qle_bool 1 q).
Lemma qlt1_sound q : qlt1 q = true -> (q < 1)%Q.
Proof.
  unfold qlt1. intros H. apply negb_true_iff in H. apply Qnot_le_lt. intros L.
  apply Qle_bool_iff in L. congruence.
Qed.
Definition override_okb (o : option Q) : bool := match o with Some x => Qle_bool 0 x | None => true end.
Lemma override_okb_sound o : override_okb o = true -> sane_override o.
Proof. destruct o; cbn; [apply Qle_bool_iff | auto]. Qed.
Definition damage_okb (d : damage_spec) : bool :=
  Qle_bool 0 (potency d) && Qle_bool 0 (single_damage_mult d) && qpos (pet_scalar d)
  && (override_okb (trait_damage_mult_override d) && override_okb (pet_job_mod_override d)).
Lemma damage_okb_sound d : damage_okb d = true -> sane_damage d.
Proof.
  unfold damage_okb, sane_damage. rewrite !andb_true_iff, !Qle_bool_iff. intros [[[A B] C] [D E]].
  apply qpos_sound in C. apply override_okb_sound in D, E. tauto.
Qed.
Definition ext_nonnegb (e : ext) : bool := match e with Fin z => 0 <=? z | Inf => true end.
Definition ext_leb (a b : ext) : bool :=
  match a, b with Fin x, Fin y => x <=? y | _, Inf => true | Inf, Fin _ => false end.
Lemma ext_nonnegb_sound e : ext_nonnegb e = true -> ext_nonneg e.
Proof. destruct e; cbn; [apply Z.leb_le | auto]. Qed.
Lemma ext_leb_sound a b : ext_leb a b = true -> ext_le a b.
Proof. destruct a, b; cbn; try discriminate; auto. apply Z.leb_le. Qed.
Definition effect_okb (e : status_spec) : bool :=
  (Qle_bool 0 (crit_rate_add e) && Qle_bool 0 (dh_rate_add e) && qpos (damage_mult e) && qpos (main_stat_mult e)
   && Qle_bool 0 (main_stat_add e) && Qle_bool 0 (auto_attack_delay_reduction e)
   && qlt1 (auto_attack_delay_reduction e) && Qle_bool 0 (haste_time_reduction e) && qlt1 (haste_time_reduction e))
  && (0 <=? flat_gcd_recast_time_reduction e) && ext_nonnegb (flat_cast_time_reduction e)
  && ext_nonnegb (duration e) && ext_leb (duration e) (max_duration e)
  && ext_nonnegb (num_uses e) && ext_leb (num_uses e) (max_num_uses e).
Lemma effect_okb_sound e : effect_okb e = true -> sane_effect e.
Proof.
  unfold effect_okb, sane_effect. rewrite !andb_true_iff, !Qle_bool_iff, Z.leb_le.
  intros [[[[[[[[[[[[[[? ?] P1] P2] ?] ?] L1] ?] L2] ?] E1] E2] E3] E4] E5].
  apply qpos_sound in P1, P2. apply qlt1_sound in L1, L2. apply ext_nonnegb_sound in E1, E2, E4.
  apply ext_leb_sound in E3, E5. tauto.
Qed.
Definition numbers_ok (s : skill) : bool :=
  forallb timing_okb (timings_of s) && forallb damage_okb (damages_of s) && forallb effect_okb (effects_of s).

(** ** Damage over time *)

Definition is_dotb (d : damage_spec) : bool :=
  match damage_class d with DC_PHYSICAL_DOT | DC_MAGICAL_DOT => true | _ => false end.
Lemma is_dotb_spec d : is_dotb d = true <-> is_dot d.
Proof. unfold is_dotb, is_dot. destruct (damage_class d); intuition (congruence || auto). Qed.
(** A follow-up with a duration has only damage-over-time specs, at least one; one
    without has none; [exact] asks for whole ticks. *)
Definition dot_ok (exact : bool) (s : skill) : bool :=
  forallb (fun fu =>
    let ds := damages_of (fu_skill fu) in
    match fu_dot fu with
    | Some n => forallb is_dotb ds && negb (match ds with [] => true | _ => false end)
                && (0 <=? n) && (negb exact || ((0 <? n) && (n mod 3000 =? 0)))
    | None => forallb (fun d => negb (is_dotb d)) ds
    end) (follow_ups_of s).

(** ** Times *)

Definition delays_ok (s : skill) : bool := forallb (fun fu => 0 <=? fu_delay fu) (follow_ups_of s).
Definition timedb (s : skill) : bool :=
  match sk_timing s with
  | CNone => false
  | COne _ => true
  | CDict d => forallb (fun kv => match snd kv with Some _ => true | None => false end) d
  end.
Lemma timedb_sound s m :
  timedb s = true -> cspec_ok (sk_timing s) = true -> NoDup (sm_cond m) ->
  exists t, get_timing_spec s m = Ok (Some t).
Proof.
  unfold timedb, get_timing_spec. destruct (sk_timing s) as [|t|d]; intros T C N; [discriminate|cbn; eauto|].
  destruct (table_ok_lookup d (sm_cond m) C N) as (k & v & I & E). rewrite forallb_forall in T.
  specialize (T _ I). cbn in T. destruct v as [t|]; [|discriminate]. exists t. exact E.
Qed.

(** ** References *)

Definition combo_ok (skills : list skill) (s : skill) : bool :=
  forallb (fun c => forallb (fun a =>
    existsb (fun t => String.eqb (sk_name t) a
                      && some_part 6 (fun t => existsb (fun c' => combo_group c' =? combo_group c) (combos_of t)) t)
      skills) (combo_actions c)) (combos_of s).
Definition resources_ok (names : list string) (s : skill) : bool :=
  forallb (fun j => jr_clear_all j || smem (jr_name j) names) (changes_of s).
Definition reaches_ok (skills : list skill) (s : skill) : bool :=
  forallb (fun e => match se_allowlist e with
                    | None => true
                    | Some al => existsb (some_part 6 (fun t => smem (sk_name t) al)) skills
                    end) (effects_of s).
Definition neutralb (e : status_spec) : bool :=
  Qeq_bool (crit_rate_add e) 0 && Qeq_bool (dh_rate_add e) 0 && Qeq_bool (damage_mult e) 1
  && Qeq_bool (main_stat_add e) 0 && Qeq_bool (main_stat_mult e) 1
  && Qeq_bool (auto_attack_delay_reduction e) 0 && Qeq_bool (haste_time_reduction e) 0
  && ext_eqb (flat_cast_time_reduction e) (Fin 0) && (flat_gcd_recast_time_reduction e =? 0)
  && match se_crit e, se_dh e with F_DEFAULT, F_DEFAULT => true | _, _ => false end
  && match expires_status_effects e with [] => true | _ => false end
  && negb (clear_all_status_effects e) && add_to_skill_modifier_condition e.
Definition allowsb (e : status_spec) (n : string) : bool :=
  match se_allowlist e with None => true | Some l => smem n l end.
Definition mentionsb (s : skill) (c : string) : bool := existsb (smem c) (keys_of_skill s).
Definition matters_ok (skills : list skill) (s : skill) : bool :=
  forallb (fun e => negb (neutralb e)
     || existsb (some_part 6 (fun t => allowsb e (sk_name t) && mentionsb t (sk_name s))) skills) (effects_of s).

(** ** Potency never grows when a combo or positional is missed *)

Fixpoint nub (l : list string) : list string :=
  match l with [] => [] | x :: l => if smem x l then nub l else x :: nub l end.
Lemma nub_in x l : In x (nub l) <-> In x l.
Proof.
  induction l as [|y l IH]; cbn; [tauto|]. destruct (smem y l) eqn:M.
  - rewrite IH. apply smem_spec in M. split; [auto|]. intros [<-|H]; [exact M | exact H].
  - cbn. rewrite IH. tauto.
Qed.
Lemma nub_nodup l : NoDup (nub l).
Proof.
  induction l as [|y l IH]; cbn; [constructor|]. destruct (smem y l) eqn:M; [exact IH|].
  constructor; [|exact IH]. rewrite nub_in, <- smem_spec. congruence.
Qed.
Fixpoint sublists {A} (l : list A) : list (list A) :=
  match l with [] => [[]] | x :: l => let r := sublists l in (r ++ map (cons x) r)%list end.
Lemma filter_sublist {A} (f : A -> bool) l : In (filter f l) (sublists l).
Proof.
  induction l as [|x l IH]; cbn; [auto|]. destruct (f x); apply in_or_app; [right | left; exact IH].
  apply in_map, IH.
Qed.
Definition named {V} (d : list (cond * V)) : list string := nub (flat_map fst d).

Lemma best_key_det keys wc wc' k k' :
  distinct_sets keys -> (forall x, In x keys -> incl x wc <-> incl x wc') ->
  best_key keys wc k -> best_key keys wc' k' -> k = k'.
Proof.
  intros D H (b & a & E & I & M & L) (b' & a' & E' & I' & M' & L').
  assert (Ik : In k keys) by (rewrite E; apply in_or_app; cbn; auto).
  assert (Ik' : In k' keys) by (rewrite E'; apply in_or_app; cbn; auto).
  assert (Len : List.length k = List.length k').
  { apply Nat.le_antisymm.
    - apply M'; [exact Ik|]. apply H; assumption.
    - apply M; [exact Ik'|]. apply H; assumption. }
  rewrite E in E'. revert b' E'. clear - L L' I I' Len H D E Ik Ik'. 
  assert (P : forall p q, (p ++ k :: a)%list = (q ++ k' :: a')%list -> In k' a \/ In k a' \/ k = k').
  { induction p as [|x p IH]; intros [|y q] Q; cbn in Q; inversion Q; subst; auto.
    - left. apply in_or_app. cbn. auto.
    - right. left. apply in_or_app. cbn. auto.
    - eapply IH; eauto. }
  intros b' Q. destruct (P b b' Q) as [A|[A|A]]; [| |exact A]; exfalso.
  - specialize (L k' A (proj2 (H k' Ik') I')). lia.
  - specialize (L' k A (proj1 (H k Ik) I)). lia.
Qed.
Lemma clookup_same_keys {V} (d : list (cond * V)) wc wc' :
  distinct_setsb (map fst d) = true -> NoDup wc -> NoDup wc' -> (forall x, In x (named d) -> In x wc <-> In x wc') ->
  clookup d wc = clookup d wc'.
Proof.
  intros D N N' H. apply distinct_sets_dec in D.
  assert (K : forall k, In k (map fst d) -> incl k wc <-> incl k wc').
  { intros k I. apply in_map_iff in I as ([k0 v] & <- & I). cbn.
    assert (S : forall x, In x k0 -> In x (named d)).
    { intros x X. apply nub_in. apply in_flat_map. exists (k0, v). auto. }
    split; intros J x X; apply H; auto. }
  destruct (clookup_spec d wc N D) as [(k & v & I & B & ->)|[G ->]],
    (clookup_spec d wc' N' D) as [(k' & v' & I' & B' & ->)|[G' ->]].
  - assert (k = k') as -> by exact (best_key_det _ _ _ _ _ D K B B').
    f_equal. apply (in_cget _ _ _ D) in I. apply (in_cget _ _ _ D) in I'. congruence.
  - exfalso. destruct B as (b & a & E & J & _). apply (G' k); [rewrite E; apply in_or_app; cbn; auto|].
    apply K; [rewrite E; apply in_or_app; cbn; auto | exact J].
  - exfalso. destruct B' as (b & a & E & J & _). apply (G k'); [rewrite E; apply in_or_app; cbn; auto|].
    apply K; [rewrite E; apply in_or_app; cbn; auto | exact J].
  - reflexivity.
Qed.
Lemma clookup_same {V} (d : list (cond * V)) wc wc' :
  table_ok d = true -> NoDup wc -> NoDup wc' -> (forall x, In x (named d) -> In x wc <-> In x wc') ->
  clookup d wc = clookup d wc'.
Proof. unfold table_ok. rewrite andb_true_iff. intros [D _]. apply clookup_same_keys, D. Qed.

Definition misses : list string := ["No Combo"; "No Positional"].
Definition not_better (a b : res (option damage_spec)) : bool :=
  match a, b with
  | Ok (Some x), Ok (Some y) => Qle_bool (potency x) (potency y)
  | Ok None, _ => true
  | _, _ => false
  end.
Definition miss_table (d : list (cond * option damage_spec)) (c : string) : bool :=
  if smem c (named d)
  then forallb (fun wc => not_better (clookup d (c :: wc)) (clookup d wc)) (sublists (sremove c (named d)))
  else true.
Definition miss_ok (s : skill) : bool :=
  match sk_damage s with CDict d => forallb (miss_table d) misses | _ => true end.

Lemma miss_table_sound d c wc wc' a :
  table_ok d = true -> miss_table d c = true -> NoDup wc -> NoDup wc' -> In c wc ->
  (forall x, In x wc' <-> In x wc /\ x <> c) -> clookup d wc = Ok (Some a) ->
  exists b, clookup d wc' = Ok (Some b) /\ (potency a <= potency b)%Q.
Proof.
  intros T M N N' C H E. unfold miss_table in M. destruct (smem c (named d)) eqn:S.
  2:{ apply smem_false in S. exists a. split; [|apply Qle_refl]. rewrite <- E.
    apply clookup_same; auto. intros x X. rewrite H. intuition congruence. }
  - set (w := filter (fun x => smem x wc) (sremove c (named d))).
    assert (W : forall x, In x w <-> In x (named d) /\ x <> c /\ In x wc).
    { intros x. unfold w. rewrite filter_In, sremove_in, smem_spec. tauto. }
    assert (Nw : NoDup w) by (unfold w; apply NoDup_filter; unfold sremove; apply NoDup_filter, nub_nodup).
    assert (Nc : NoDup (c :: w)). { constructor; [|exact Nw]. rewrite W. tauto. }
    rewrite forallb_forall in M. specialize (M w (filter_sublist _ _)).
    rewrite (clookup_same d wc (c :: w)) in E; auto.
    2:{ intros x X. cbn [In]. rewrite W. destruct (string_dec c x); intuition congruence. }
    rewrite (clookup_same d wc' w); auto.
    2:{ intros x X. rewrite W, H. tauto. }
    rewrite E in M. cbn in M. destruct (clookup d w) as [[b|]|]; try discriminate.
    exists b. split; [reflexivity|]. apply Qle_bool_iff, M.
Qed.
Lemma miss_ok_sound s c m m' a :
  cspec_ok (sk_damage s) = true -> miss_ok s = true -> In c misses -> NoDup (sm_cond m) -> NoDup (sm_cond m') ->
  has_also c m m' -> get_damage_spec s m = Ok (Some a) ->
  exists b, get_damage_spec s m' = Ok (Some b) /\ (potency a <= potency b)%Q.
Proof.
  intros T M C N N' [H1 H2] E. unfold get_damage_spec, miss_ok in *. destruct (sk_damage s) as [|x|d];
    cbn [cspec_ok cspec_get] in *.
  - discriminate.
  - injection E as ->. exists a. split; [reflexivity | apply Qle_refl].
  - assert (M' : miss_table d c = true) by (apply (proj1 (forallb_forall (miss_table d) misses) M c C)).
    exact (miss_table_sound d c _ _ a T M' N N' H1 H2 E).
Qed.

(** What the follow-ups of a press are worth. *)
Definition fu_worth (fu : follow_up) : Q :=
  let p := match get_damage_spec (fu_skill fu) default_modifier with Ok (Some d) => potency d | _ => 0%Q end in
  match fu_dot fu with None => p | Some d => (p * (d # 3000))%Q end.
Definition worth (own : Q) (l : list follow_up) : Q := fold_right Qplus own (map fu_worth l).
Definition no_gain (a b : res (list follow_up)) : bool :=
  match a, b with
  | Ok x, Ok y => Qle_bool (worth 0 x) (worth 0 y)
  | Ok _, Err _ => false
  | Err _, _ => true
  end.
Definition follow_miss (d : list (cond * list follow_up)) (c : string) : bool :=
  if smem c (named d)
  then forallb (fun wc => no_gain (clookup d (c :: wc)) (clookup d wc)) (sublists (sremove c (named d)))
  else true.
Definition follow_miss_ok (s : skill) : bool :=
  match sk_follow_ups s with
  | TDict (kv :: d) => distinct_setsb (map fst (kv :: d)) && forallb (follow_miss (kv :: d)) misses
  | _ => true
  end.

Lemma worth_split own l : (worth own l == own + worth 0 l)%Q.
Proof.
  unfold worth. induction l as [|fu l IH]; cbn [map fold_right].
  - rewrite Qplus_0_r. reflexivity.
  - rewrite IH, !Qplus_assoc. rewrite (Qplus_comm (fu_worth fu) own). reflexivity.
Qed.
Lemma follow_miss_sound d c wc wc' a :
  distinct_setsb (map fst d) = true -> follow_miss d c = true -> NoDup wc -> NoDup wc' -> In c wc ->
  (forall x, In x wc' <-> In x wc /\ x <> c) -> clookup d wc = Ok a ->
  exists b, clookup d wc' = Ok b /\ (worth 0 a <= worth 0 b)%Q.
Proof.
  intros T M N N' C H E. unfold follow_miss in M. destruct (smem c (named d)) eqn:S.
  2:{ apply smem_false in S. exists a. split; [|apply Qle_refl]. rewrite <- E.
    apply clookup_same_keys; auto. intros x X. rewrite H. intuition congruence. }
  - set (w := filter (fun x => smem x wc) (sremove c (named d))).
    assert (W : forall x, In x w <-> In x (named d) /\ x <> c /\ In x wc).
    { intros x. unfold w. rewrite filter_In, sremove_in, smem_spec. tauto. }
    assert (Nw : NoDup w) by (unfold w; apply NoDup_filter; unfold sremove; apply NoDup_filter, nub_nodup).
    assert (Nc : NoDup (c :: w)). { constructor; [|exact Nw]. rewrite W. tauto. }
    rewrite forallb_forall in M. specialize (M w (filter_sublist _ _)).
    rewrite (clookup_same_keys d wc (c :: w)) in E; auto.
    2:{ intros x X. cbn [In]. rewrite W. destruct (string_dec c x); intuition congruence. }
    rewrite (clookup_same_keys d wc' w); auto.
    2:{ intros x X. rewrite W, H. tauto. }
    rewrite E in M. cbn [no_gain] in M. destruct (clookup d w) as [b|]; try discriminate.
    exists b. split; [reflexivity|]. apply Qle_bool_iff, M.
Qed.
Lemma follow_miss_ok_sound s c m m' a :
  follow_miss_ok s = true -> In c misses -> NoDup (sm_cond m) -> NoDup (sm_cond m') ->
  has_also c m m' -> get_follow_up_skills s m = Ok a ->
  exists b, get_follow_up_skills s m' = Ok b /\ (worth 0 a <= worth 0 b)%Q.
Proof.
  intros M C N N' [H1 H2] E. unfold get_follow_up_skills, follow_miss_ok in *.
  destruct (sk_follow_ups s) as [l|d]; cbn [tspec_get] in *.
  - injection E as ->. exists a. split; [reflexivity | apply Qle_refl].
  - destruct d as [|kv d]; [injection E as <-; exists []; split; [reflexivity | apply Qle_refl]|].
    apply andb_true_iff in M as [D M]. rewrite forallb_forall in M.
    exact (follow_miss_sound (kv :: d) c _ _ a D (M c C) N N' H1 H2 E).
Qed.

(** ** The condition other jobs use *)
Definition off_class_ok (s : skill) : bool :=
  String.eqb (sk_off_class_default s) "" || mentionsb s (sk_off_class_default s).

(** ** What counts presses: effects of limited use have an allow list without a Wait. *)
Definition no_wait (l : list string) : bool := forallb (fun n => negb (String.prefix "Wait " n)) l.
Definition usesb (e : status_spec) : bool :=
  match num_uses e, max_num_uses e with
  | Inf, Inf => true
  | _, _ => match se_allowlist e with Some l => no_wait l | None => false end
  end.
Definition uses_ok (s : skill) : bool := forallb usesb (effects_of s).

(** ** One job *)

(** Parts for which a claim fails; each is the subject of a theorem of its own. *)
Definition except_follow_ups (job name : string) : bool := String.eqb job "MCH" && String.eqb name "Automaton Queen".
Definition except_combo (job name : string) : bool := String.eqb job "RDM" && String.eqb name "Enchanted Moulinet Trois".
Definition except_reach (job name : string) : bool :=
  (smem job ["AST"; "SCH"; "SGE"] && String.eqb name "Swiftcast")
  || (String.eqb job "PCT" && String.eqb name "Rainbow Bright")
  || (String.eqb job "VPR" && String.eqb name "Poised for Twinfang").
Definition except_matter (job name : string) : bool :=
  (String.eqb job "VPR" && smem name ["Fellhunter's Venom"; "Fellskin's Venom"])
  || (String.eqb job "BLM" && String.eqb name "Firestarter").
Definition except_miss (job name : string) : bool := String.eqb job "MNK" && String.eqb name "Snap Punch".
Definition except_ticks (job name : string) : bool := String.eqb job "MCH" && String.eqb name "Flamethrower".

Definition part_ok (job : string) (skills : list skill) (resources : list string) (p : skill) : bool :=
  let n := sk_name p in
  lookups_ok (negb (except_follow_ups job n)) p
  && numbers_ok p
  && dot_ok (negb (except_ticks job n)) p
  && delays_ok p
  && resources_ok resources p
  && (except_combo job n || combo_ok skills p)
  && (except_reach job n || reaches_ok skills p)
  && (except_matter job n || except_reach job n || matters_ok skills p)
  && (except_miss job n || miss_ok p)
  && (off_class_ok p && (follow_miss_ok p && uses_ok p)).
Definition skill_ok (job : string) (skills : list skill) (resources : list string) (s : skill) : bool :=
  timedb s && all_parts 6 (part_ok job skills resources) s.
