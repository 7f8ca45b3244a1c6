(** * Damage in whole numbers: properties (C83, C84) *)

From Coq Require Import ZArith QArith Qround Qabs List String Bool Lia Lqa Setoid Morphisms.
From Verif Require Import Base BaseFacts Float FloatFacts Strings Types Lookup StatusEffect Stats DamageBuild Damage SpecHit HitFacts HitOutcomes SpeedFacts
  CondFacts Fixtures ExactFloat SpecExact SpecGame ExactFacts ExactDamage.
Import ListNotations.
Open Scope string_scope.
Open Scope Z_scope.
Local Opaque fl dec.

(** ** Stats *)
Lemma reduction_total v j l t : v <> "test" -> table_at l = Some t -> exists x, trait_reduction_of v j l = Ok x.
Proof.
  intros V T. unfold trait_reduction_of. destruct (is_test v); [eauto|]. unfold reduction_data. unfold table_at in T.
  destruct (l =? 90); [|destruct (l =? 100); [|discriminate]]; cbn [bind]; eauto.
Qed.
Lemma sheet_accepted h : h_version h <> "test" ->
  ((exists st, stats_of (gear_of h) = Ok st) <-> exists t md r delay, on_roster h t md r delay).
Proof.
  intros V. split.
  - intros (st & G). unfold stats_of, gear_of in G.
    cbn [g_wd g_delay g_main g_det g_dh g_crit g_speed g_job g_version g_ten g_roles g_healer g_level] in G. unfold make_stats in G.
    apply bind_ok in G as (c & Ec & G). apply bind_ok in G as (jm & Ej & _). destruct (consts_table _ _ _ V Ec) as (t & Et & _).
    destruct (roster_complete _ _ _ V Ej) as (r & u & I). exists t, jm, r, (match h_delay h with Some z => z | None => u end).
    split; [exact V|]. split; [exact Et|]. exists u. auto.
  - intros (t & md & r & delay & _ & T & u & I & _). unfold stats_of, gear_of.
    cbn [g_wd g_delay g_main g_det g_dh g_crit g_speed g_job g_version g_ten g_roles g_healer g_level]. unfold make_stats.
    destruct (table_consts _ _ _ V T) as (c & Ec & _). rewrite Ec. cbn [bind].
    destruct (roster_facts (h_version h) _ _ _ _ V I) as (J1 & _ & _ & _ & _ & J6 & _). rewrite J1. cbn [bind].
    destruct (reduction_total (h_version h) (h_job h) (h_level h) t V T) as (x & Ex). rewrite Ex. cbn [bind]. rewrite J6.
    destruct (h_delay h); cbn [bind of_option]; eauto.
Qed.
Lemma haste_exact v j l x : v <> "test" -> loads v l -> trait_reduction_of v j l = Ok x ->
  (x == dec (if String.eqb j "MNK" then 20 else if String.eqb j "NIN" then if l =? 100 then 15 else 0 else 0) 100)%Q.
Proof.
  intros V L H. unfold trait_reduction_of in H. assert (T : is_test v = false) by (unfold is_test; destruct (String.eqb_spec v "test"); [contradiction|reflexivity]).
  rewrite T in H. assert (O : str_leb "6.55" v = true).
  { destruct L as [(_ & [->|L])|(_ & L)]; [reflexivity| |];
      (apply (str_leb_trans _ "7.0"); [reflexivity | exact L]). }
  assert (D20 : (dec 2 10 == dec 20 100)%Q) by (vm_compute; reflexivity). assert (D0 : (0 == dec 0 100)%Q) by (vm_compute; reflexivity).
  destruct L as [(-> & L)|(-> & L)]; cbn [reduction_data Z.eqb Pos.eqb bind] in H; injection H as <-;
    unfold get_greatest_dict_val, get_greatest_val_less_than_query; cbn [dkeys map fst filter]; rewrite O; [|rewrite L]; cbn [str_max fold_left of_option].
  - cbn. destruct (String.eqb_spec j "MNK") as [->|N1]; [exact D20|]. destruct (String.eqb j "NIN"); exact D0.
  - change (str_ltb "6.55" "7.0") with true. cbn. destruct (String.eqb_spec j "MNK") as [->|N1]; [exact D20|].
    destruct (String.eqb_spec j "NIN") as [->|N2]; [reflexivity | exact D0].
Qed.
Lemma sheet_derived h st t md r delay : stats_of (gear_of h) = Ok st -> on_roster h t md r delay -> sensible h ->
  (ps_crit_rate st == thousandths (crit_steps t h + 50))%Q /\ (ps_crit_bonus st == thousandths (crit_steps t h + 400))%Q
  /\ (ps_dh_rate st == thousandths (dh_steps t h))%Q /\ (ps_trait_damage_mult st == dec (trait_percent r) 100)%Q
  /\ (st_weapon_delay st == dec delay 100)%Q
  /\ (loads (h_version h) (h_level h) -> (ps_trait_haste st == dec (haste_percent h) 100)%Q /\ (ps_trait_auto st == dec (haste_percent h) 100)%Q).
Proof.
  intros G (V & T & u & I & ->) Q. pose proof G as G0. unfold stats_of, gear_of in G.
  cbn [g_wd g_delay g_main g_det g_dh g_crit g_speed g_job g_version g_ten g_roles g_healer g_level] in G.
  destruct (table_consts (h_version h) (h_level h) t V T) as (c & Ec & S). destruct (roster_facts (h_version h) _ _ _ _ V I) as (J1 & J2 & J3 & J4 & J5 & J6 & J7 & J8).
  unfold make_stats in G. rewrite Ec in G. cbn [bind] in G. rewrite J1 in G. cbn [bind] in G.
  apply bind_ok in G as (red & Er & G). rewrite J6 in G.
  destruct (sheet_stats h st G0 t md r (match h_delay h with Some z => z | None => u end) ltac:(split; [exact V|]; split; [exact T|]; exists u; auto))
    as (_ & _ & _ & _ & WD & _).
  apply bind_ok in G as (w & Ew & G). injection G as <-. cbn in WD |- *. rewrite WD.
  destruct Q as (_ & _ & _ & _ & Qd & Qc & _). destruct (table_sane _ _ T) as (S1 & S2 & S3 & _).
  assert (E10 : c_crit1 c = 50 /\ c_crit2 c = 400) by (split; apply S). destruct E10 as (E10 & E11).
  assert (CB : Z.abs (crit_steps t h) <= 2 ^ 20).
  { unfold crit_steps. unfold fits in Qc. apply abs_div; lia. }
  split; [unfold crit_rate_of; rewrite (crit_exact c t _ T S _ Qc), E10; apply rate_exact; [exact CB | lia]|].
  split; [unfold crit_bonus_of; rewrite (crit_exact c t _ T S _ Qc), E11; apply rate_exact; [exact CB | lia]|].
  split; [apply (dh_exact c t _ T S _ Qd)|]. split; [exact J5|]. split; [reflexivity|].
  intros L. pose proof (haste_exact _ _ _ _ V L Er) as H. split; exact H.
Qed.

(** Cast and recast times. *)
Lemma time_exact v l t ms speed k : v <> "test" -> table_at l = Some t -> 0 <= ms <= 1000000 -> 0 <= speed <= 15000 ->
  k = ms * (1000 - 130 * (speed - base_sub t) / base_div t) / 10000 ->
  exists x, get_time_using_speed_stat ms (q speed) v l = Ok x /\ 10 * k - 1 <= x <= 10 * k.
Proof.
  intros V T M Sp ->. destruct (table_consts v l t V T) as (c & Ec & S). unfold get_time_using_speed_stat. rewrite Ec. cbn [bind].
  eexists. split; [reflexivity|]. destruct (table_sane _ _ T) as (S1 & S2 & S3 & _).
  destruct S as (_ & E2 & E3 & _ & _ & _ & _ & E8 & _).
  unfold time_using_speed_stat. rewrite E8, E2, E3. set (s := 130 * (speed - base_sub t) / base_div t).
  assert (SB : -100 <= s <= 1000).
  { unfold s. split; [apply Z.div_le_lower_bound; lia|]. apply Z.div_le_upper_bound; [lia|].
    clear - T Sp. unfold table_at in T. destruct (l =? 90); [|destruct (l =? 100); [|discriminate]]; injection T as <-; cbn [base_sub base_div]; lia. }
  assert (C : fceil (fdiv (fmul (q 130) (fsub (q (base_sub t)) (q speed))) (q (base_div t))) = inject_Z (- s)).
  { unfold fceil. f_equal. unfold Qceiling. f_equal. unfold s. rewrite <- (floor_fdiv (130 * (speed - base_sub t)) (base_div t)) by lia.
    apply Qfloor_comp. unfold q. rewrite fsub_int, fmul_int by lia. unfold fdiv. rewrite <- fl_opp. apply fl_compat.
    replace (130 * (base_sub t - speed)) with (- (130 * (speed - base_sub t))) by lia. rewrite inject_Z_opp. unfold Qdiv. ring. }
  rewrite C. assert (F : ffloor (fdiv (fmul (q ms) (fadd (q 1000) (inject_Z (- s)))) (q 10000)) = inject_Z (ms * (1000 - s) / 10000)).
  { apply ffloor_div; [|lia|nia]. unfold q. rewrite fadd_int by lia. replace (1000 + - s) with (1000 - s) by lia. apply fmul_int. nia. }
  rewrite F. apply (hundredths (ms * (1000 - s) / 10000)). split; [apply Z.div_pos; nia|]. apply Z.div_le_upper_bound; nia.
Qed.

(** ** Hits *)
Lemma hit_exact h st t md r delay s m e d p pm scale a a' dh :
  stats_of (gear_of h) = Ok st -> on_roster h t md r delay -> sensible h ->
  get_damage_spec s m = Ok (Some d) -> whole_spec md d p pm scale -> damage_class d <> DC_UNKNOWN ->
  adds_points (fst e) a -> adds_points (snd e) a' -> 0 <= a -> 0 <= a' -> fits (h_main h + (a + a')) ->
  (dh = true <-> In F_YES (dh_sources d m e)) ->
  exists b x, hit_of cut t r md h (a + a') dh p (damage_class d) delay pm scale b
    /\ get_base_damage s m st e = Ok (Some x) /\ (x == q (Z.max b 1))%Q.
Proof.
  intros G R Q D W N A A' P P' Fm FD. destruct (sheet_stats h st G t md r delay R) as
    (c & Ec & S & I1 & I2 & I3 & I4 & I5 & I6 & I7 & I8 & I9 & I10 & I11 & I12 & I13 & I14 & I15).
  destruct R as (V & T & u & I & Ed).
  assert (DB : 0 <= delay <= 1000).
  { destruct (roster_facts (h_version h) _ _ _ _ V I) as (_ & _ & _ & _ & _ & _ & _ & UB). destruct Q as (_ & QD & _). subst delay. destruct (h_delay h); lia. }
  assert (FD' : forced_dh F_YES d m e = dh).
  { destruct (forced_dh F_YES d m e) eqn:E; symmetry; [apply FD, forced_dh_in, E|]. destruct dh; [|reflexivity].
    apply forced_dh_not in E. destruct E. apply FD. reflexivity. }
  destruct (class_exact h st c t md r delay T S Q I1 I2 I3 I4 I5 I6 I7 I8 I9 I10 I11 I12 I13 I14 I15 DB d m e a a' p pm scale dh A A' P P' Fm W FD' N)
    as (b & HB & x & EX & XB).
  exists b. unfold get_base_damage. rewrite D. cbn [bind]. destruct W as (W1 & W2 & _).
  destruct (Qeq_bool (potency d) 0) eqn:E0.
  { apply Qeq_bool_iff in E0. rewrite W1 in E0. apply (inject_Z_eq p 0) in E0. lia. }
  rewrite Ec. cbn [bind]. rewrite EX. cbn [bind]. eexists. split; [exact HB|]. split; [reflexivity|].
  unfold qmax. destruct (Qle_bool x 1) eqn:L.
  - apply Qle_bool_iff in L. rewrite XB in L. apply (inject_Z_le_inv b 1) in L. rewrite Z.max_r by (clear - L; lia). reflexivity.
  - assert (L' : ~ (x <= 1)%Q) by (intros L'; apply Qle_bool_iff in L'; congruence). rewrite XB in L'.
    rewrite Z.max_l; [exact XB|]. destruct (Z.le_gt_cases 1 b) as [K|K]; [exact K|]. destruct L'. apply (inject_Z_le b 1). clear - K. lia.
Qed.

(** Doubles never give more than whole numbers. *)
Lemma never_more h t md r delay a dh p c pm scale b b' :
  on_roster h t md r delay -> sensible h -> 0 <= p -> 0 <= pm -> c <> DC_AUTO ->
  hit_of cut t r md h a dh p c delay pm scale b -> hit_of whole t r md h a dh p c delay pm scale b' -> b <= b'.
Proof.
  intros (V & T & u & I & _) Q P PM N. destruct (roster_facts (h_version h) _ _ _ _ V I) as (_ & _ & _ & _ & _ & _ & MB & _).
  destruct Q as (Q1 & _ & Q2 & Q3 & Q4 & _ & Q5 & Q6 & _). unfold fits in *.
  destruct (table_sane _ _ T) as (S1 & S2 & S3 & S4 & S5 & S6).
  assert (DT : 0 <= det_of t h dh).
  { unfold det_of. assert (-100 <= 140 * (h_det h - base_main t) / base_div t) by (apply Z.div_le_lower_bound; lia).
    assert (-100 <= 140 * (h_dh h - base_sub t) / base_div t) by (apply Z.div_le_lower_bound; lia). destruct dh; lia. }
  assert (TE : 0 <= ten_of t h).
  { unfold ten_of. assert (-100 <= ten_step t * (h_ten h - base_sub t) / base_div t); [|lia]. apply Z.div_le_lower_bound; nia. }
  assert (SP : 0 <= speed_of t h).
  { unfold speed_of, speed_steps. assert (-100 <= 130 * (h_speed h - base_sub t) / base_div t) by (apply Z.div_le_lower_bound; lia). lia. }
  assert (WP : forall k, 0 <= k -> 0 <= weapon_of t k h).
  { intros k K. unfold weapon_of. assert (0 <= base_main t * k / 1000) by (apply Z.div_pos; nia). lia. }
  assert (TEN : forall n n' k k', n <= n' -> tenacity cut t r h n k -> tenacity whole t r h n' k' -> k <= k').
  { intros n n' k k' L. unfold tenacity. destruct (is_tank_role r); [|lia]. intros C ->. apply (cut_le (n * ten_of t h)); [lia|nia|exact C]. }
  assert (PH : forall x x' k k' wd b b', 0 <= wd -> x <= x' -> forall k1 k1',
    cut (p * x / 100 * det_of t h dh) 1000 k -> whole (p * x' / 100 * det_of t h dh) 1000 k' ->
    tenacity cut t r h k k1 -> tenacity whole t r h k' k1' -> cut (k1 * wd) 100 b -> whole (k1' * wd) 100 b' -> b <= b').
  { intros x x' k k' wd b0 b0' Wd X k1 k1' C C' E E' H H'.
    assert (L0 : p * x / 100 <= p * x' / 100) by (apply Z.div_le_mono; nia).
    assert (L1 : k <= k') by (rewrite C'; apply (cut_le (p * x / 100 * det_of t h dh)); [lia|nia|exact C]).
    pose proof (TEN _ _ _ _ L1 E E') as L2. rewrite H'. apply (cut_le (k1 * wd)); [lia|nia|exact H]. }
  destruct c; cbn [hit_of]; [contradiction| | | |contradiction|].
  - unfold direct_hit. destruct (is_magic r); [intros H ->; eapply cut_le; [|apply Z.le_refl|exact H]; lia|].
    intros (k & k1 & C & E & H) (k' & k1' & C' & E' & H'). apply (PH _ _ _ _ _ _ _ (WP md ltac:(lia)) (Z.le_refl _) _ _ C C' E E' H H').
  - unfold magic_tick. intros -> ->. lia.
  - unfold physical_tick. intros (k & K & ->) (k' & K' & ->). assert (k <= k').
    { destruct (is_tank_role r).
      - destruct K as (j & C & ->), K' as (j' & -> & ->). apply Z.div_le_mono; [lia|].
        assert (j <= p * power_of t r (party_stat h a) * det_of t h dh / 100 * ten_of t h / 1000000); [|nia].
        eapply cut_le; [|apply Z.le_refl|exact C]; lia.
      - destruct K as (j & C & ->), K' as (j' & -> & ->). apply Z.div_le_mono; [lia|].
        eapply cut_le; [|apply Z.le_refl|exact C]; lia. }
    apply Z.div_le_mono; [lia|]. pose proof (WP md ltac:(lia)). nia.
  - unfold pet_hit. intros (x & k & k1 & C0 & C & E & H) (x' & k' & k1' & -> & C' & E' & H').
    assert (X : x <= ap_step t * ((h_main h - (base_main t * md / 100 - base_main t * pm / 100) + a) * scale - 100 * base_main t) / (100 * base_main t)).
    { eapply cut_le; [|apply Z.le_refl|exact C0]; lia. }
    apply (PH (100 + x) _ _ _ _ _ _ (WP pm ltac:(lia)) (Zplus_le_compat_l _ _ 100 X) _ _ C C' E E' H H').
Qed.
