(** * Better gear: damage, expected damage and kill times (C78) *)

From Coq Require Import ZArith QArith Qround List String Bool Lia Lqa Permutation Sorted.
From Verif Require Import Base BaseFacts Float FloatFacts Strings Types Lookup Stats Library Events Rotation DamageBuild Damage KillTime SpecHit HitFacts
  HitOutcomes SimFacts SpecKill KillFacts SpecReplay SpecShuffle Relabel SpecMove SpecNeed NeedFacts SpecGear GearFacts.
Import ListNotations.
Open Scope string_scope.
Open Scope Z_scope.
Local Opaque fl dec.

Lemma ok_inj {A} (a b : A) : Ok a = Ok b -> a = b.
Proof. intros [=]. assumption. Qed.

(** ** One hit *)

Record row_up (r r' : row) : Prop := mkRowUp {
  ru_base : btw (r_base r) (r_base r');
  ru_bonus : btw (r_crit_bonus r) (r_crit_bonus r');
  ru_crit : (r_crit_rate r <= r_crit_rate r')%Q;
  ru_dh : (r_dh_rate r <= r_dh_rate r')%Q;
  ru_trait : (0 <= r_trait r)%Q /\ r_trait r' = r_trait r;
  ru_mult : (0 <= r_mult r)%Q /\ r_mult r' = r_mult r;
  ru_time : r_time r' = r_time r
}.

Lemma crit_rate_mono c x y : a_const c -> (x <= y -> crit_rate_of c x <= crit_rate_of c y)%Q.
Proof.
  intros C L. destruct (const_pos c C) as (?&?&?&?&?&?&?&?&?&?&?&?). apply fdiv_mono; [apply q_pos; lia|].
  apply fadd_mono; [|apply Qle_refl]. apply scaled_mono; assumption.
Qed.
Lemma dh_rate_mono c x y : a_const c -> (x <= y -> dh_rate_of c x <= dh_rate_of c y)%Q.
Proof.
  intros C L. destruct (const_pos c C) as (?&?&?&?&?&?&?&?&?&?&?&?). apply fdiv_mono; [apply q_pos; lia|]. apply scaled_mono; assumption.
Qed.
Lemma better_rates g g' st st' : better g g' -> stats_of g = Ok st -> stats_of g' = Ok st' ->
  (ps_crit_rate st <= ps_crit_rate st')%Q /\ (ps_dh_rate st <= ps_dh_rate st')%Q /\ ps_trait_damage_mult st' = ps_trait_damage_mult st.
Proof.
  destruct g as [wd dl mn det dh crit sp job ver ten roles heal lev].
  destruct g' as [wd' dl' mn' det' dh' crit' sp' job' ver' ten' roles' heal' lev'].
  unfold better, stats_of, make_stats. cbn -[dget]. intros (L1&L2&L3&L4&L5&L6&L7&L8&L9&L10&E1&E2&E3) H H'. subst.
  apply bind_ok in H as (c & Ec & H). apply bind_ok in H as (jm & Ej & H). apply bind_ok in H as (red & Er & H). apply bind_ok in H as (w & Ew & H).
  rewrite Ec, Ej, Er in H'. cbn -[dget] in H'. apply bind_ok in H' as (w' & Ew' & H'). injection H as <-. injection H' as <-. cbn.
  pose proof (get_consts_const _ _ _ Ec) as C. split; [apply crit_rate_mono; assumption|]. split; [apply dh_rate_mono; assumption|reflexivity].
Qed.

Lemma rate_up a a' x y l p p' : (a <= a')%Q -> rate_is a x y l p -> rate_is a' x y l p' -> (p <= p')%Q.
Proof.
  intros L [? ?|? ?|? ?] [? ?|? ?|? ?]; try contradiction; try apply Qle_refl.
  apply fadd_mono; [|apply Qle_refl]. apply fadd_mono; [exact L|apply Qle_refl].
Qed.

Lemma base_up g g' st st' x b d : gear_nonneg g -> better g g' -> stats_of g = Ok st -> stats_of g' = Ok st' -> sane_hit x ->
  get_damage_spec (di_skill x) (di_modifier x) = Ok (Some d) ->
  get_base_damage (di_skill x) (di_modifier x) st (di_effects x) = Ok (Some b) ->
  exists b', get_base_damage (di_skill x) (di_modifier x) st' (di_effects x) = Ok (Some b') /\ (b <= b')%Q.
Proof.
  intros N B S S' (M & E1 & E2 & D) Hd Hb. specialize (D d Hd).
  assert (SD : stronger d d) by (repeat split; apply Qle_refl).
  destruct (base_damage_rises g g' st _ _ _ _ d d b N B S Hd Hd D SD E1 E2 Hb) as (st'' & S'' & L & X).
  rewrite S' in S''. injection S'' as <-. destruct (Qeq_dec (potency d) 0) as [Z|Z].
  - unfold get_base_damage. rewrite Hd. cbn [bind]. apply Qeq_bool_iff in Z. rewrite Z. eexists. split; [reflexivity|].
    apply L. unfold get_base_damage. rewrite Hd. cbn [bind]. rewrite Z. reflexivity.
  - destruct (X Z) as (b' & Hb'). exists b'. split; [exact Hb'|apply L, Hb'].
Qed.

Lemma row_rises g g' st st' x r : gear_nonneg g -> better g g' -> stats_of g = Ok st -> stats_of g' = Ok st' -> sane_hit x ->
  row_of st x = Ok r -> exists r', row_of st' x = Ok r' /\ row_up r r'.
Proof.
  intros N B S S' SH H. destruct (better_rates g g' st st' B S S') as (RC & RD & RT).
  destruct (better_up g g' st N B S) as (st'' & S'' & U). rewrite S' in S''. injection S'' as <-.
  assert (NR : row_nonneg r) by (apply (rows_nonneg g st x r S); [apply N|apply SH|exact H]).
  unfold row_of in *. apply bind_ok in H as (b & Eb & H). apply bind_ok in H as (b1 & Eb1 & H). destruct b as [b|]; [|discriminate]. injection Eb1 as <-.
  apply bind_ok in H as (sp & Es & H). apply bind_ok in H as (d & Ed & H). destruct sp as [d'|]; [|discriminate]. injection Ed as ->.
  apply bind_ok in H as ([[dh crit] bonus] & Er & H). injection H as <-.
  destruct (base_up g g' st st' x b d N B S S' SH Es Eb) as (b' & Eb' & L). rewrite Eb'. cbn [bind of_option]. rewrite Es. cbn [bind of_option].
  pose proof Er as Er0. apply rates_ok in Er as (R1 & R2 & ->).
  destruct (crit_rates_and_bonuses st' d (di_modifier x) (di_effects x)) as [[[dh' crit'] bonus']|e] eqn:Er'.
  2:{ apply rates_err in Er' as (-> & Er'). assert (X : crit_rates_and_bonuses st d (di_modifier x) (di_effects x) = Err RuntimeError)
        by (apply rates_err; auto). rewrite X in Er0. discriminate. }
  cbn [bind]. eexists. split; [reflexivity|]. apply rates_ok in Er' as (R1' & R2' & ->). destruct NR as (NR1 & NR2 & NR3 & NR4). cbn in *.
  constructor; cbn.
  - split; assumption.
  - apply (up_crit _ _ U).
  - exact (rate_up _ _ _ _ _ _ _ RC R2 R2').
  - exact (rate_up _ _ _ _ _ _ _ RD R1 R1').
  - rewrite RT. split; [exact NR3|reflexivity].
  - split; [exact NR4|reflexivity].
  - reflexivity.
Qed.

Lemma qbool_le (a b : bool) : (a = true -> b = true) -> (0 <= qbool a <= qbool b)%Q.
Proof. destruct a, b; cbn; intros H; try (specialize (H eq_refl); discriminate); lra. Qed.
Lemma DH_nonneg : (0 <= DH_DAMAGE_MULT_BONUS)%Q.
Proof. apply dec_nonneg. lia. Qed.
Lemma damage_rises base base' cb cb' cr cr' dr dr' mult trait range u :
  btw base base' -> btw cb cb' -> (cr <= cr')%Q -> (dr <= dr')%Q -> (0 <= mult)%Q -> (0 <= trait)%Q ->
  (0 <= fadd (fsub 1 (fdiv range (q 2))) (fmul range (fst (fst u))))%Q ->
  btw (fst (fst (get_damage base cb cr dr mult trait range u))) (fst (fst (get_damage base' cb' cr' dr' mult trait range u))).
Proof.
  destruct u as [[u0 u1] u2]. intros B C R D M T V. cbn [fst] in V. unfold get_damage. cbn [fst].
  apply btw_ffloor, btw_fmul; [|apply btw_same, M]. apply btw_ffloor, btw_fmul; [|apply btw_same, T].
  assert (H0 : btw (ffloor (fmul base (fadd (fsub 1 (fdiv range (q 2))) (fmul range u0)))) (ffloor (fmul base' (fadd (fsub 1 (fdiv range (q 2))) (fmul range u0)))))
    by (apply btw_ffloor, btw_fmul; [exact B|apply btw_same, V]).
  assert (H1 : btw (fmul cb (qbool (Qle_bool u1 cr))) (fmul cb' (qbool (Qle_bool u1 cr')))).
  { apply btw_fmul; [exact C|]. apply qbool_le. intros Q. apply Qle_bool_iff in Q. apply Qle_bool_iff. lra. }
  assert (H2 : btw (fmul DH_DAMAGE_MULT_BONUS (qbool (Qle_bool u2 dr))) (fmul DH_DAMAGE_MULT_BONUS (qbool (Qle_bool u2 dr')))).
  { apply btw_fmul; [apply btw_same, DH_nonneg|]. apply qbool_le. intros Q. apply Qle_bool_iff in Q. apply Qle_bool_iff. lra. }
  assert (H3 := btw_fadd _ _ _ _ H0 (btw_ffloor _ _ (btw_fmul _ _ _ _ H0 H1))).
  exact (btw_fadd _ _ _ _ H3 (btw_ffloor _ _ (btw_fmul _ _ _ _ H3 H2))).
Qed.
Lemma sample_rises r r' u : row_up r r' -> drawn u -> (fst (fst (sample_cell r u)) <= fst (fst (sample_cell r' u)))%Q.
Proof.
  intros U V. destruct (ru_trait _ _ U) as [T ET]. destruct (ru_mult _ _ U) as [M EM]. unfold sample_cell. rewrite ET, EM.
  apply btw_le, damage_rises; try apply U; try assumption. destruct u as [[u0 u1] u2]. destruct V as (V & _). cbn [fst].
  apply fadd_nonneg; [|apply fmul_nonneg; [apply dec_nonneg; lia|lra]].
  vm_compute. discriminate.
Qed.

Lemma range_rises r r' init init' cr dr u : row_up r r' -> r_crit_bonus r' = r_crit_bonus r -> btw init init' ->
  (range_end r init cr dr u <= range_end r' init' cr dr u)%Q.
Proof.
  intros U EB B. destruct (ru_trait _ _ U) as [T ET]. destruct (ru_mult _ _ U) as [M EM]. unfold range_end. rewrite ET, EM, EB.
  assert (L : btw (fst (fst (get_damage init (r_crit_bonus r) cr dr (r_mult r) (r_trait r) 0 u)))
                (fst (fst (get_damage init' (r_crit_bonus r) cr dr (r_mult r) (r_trait r) 0 u)))).
  { apply damage_rises; try apply Qle_refl; try assumption.
    - apply btw_same, (btw_nonneg _ _ (ru_bonus _ _ U)).
    - apply fadd_nonneg; [vm_compute; discriminate|].
      unfold fmul. rewrite Qmult_0_l. rewrite fl_0. apply Qle_refl. }
  destruct (get_damage init _ cr dr (r_mult r) (r_trait r) 0 u) as [[a c1] c2]. destruct (get_damage init' _ cr dr (r_mult r) (r_trait r) 0 u) as [[a' c1'] c2'].
  exact (btw_le _ _ L).
Qed.
Lemma expected_rises r r' u : row_up r r' -> r_crit_bonus r' = r_crit_bonus r -> r_crit_rate r' = r_crit_rate r -> r_dh_rate r' = r_dh_rate r ->
  in_unit (r_crit_rate r) -> in_unit (r_dh_rate r) ->
  (expected_of (row_outcomes r u) <= expected_of (row_outcomes r' u))%Q.
Proof.
  intros U EB EC ED UC UD.
  assert (LO : btw (low_init r) (low_init r')) by (apply btw_ffloor, btw_fmul; [apply btw_same, dec_nonneg; lia|apply U]).
  assert (HI : btw (high_init r) (high_init r')) by (apply btw_ffloor, btw_fmul; [apply btw_same, dec_nonneg; lia|apply U]).
  assert (P : forall o, In o (row_outcomes r u) -> (0 <= o_prob o)%Q) by (intros o I; apply (probs_unit r u o UC UD I)).
  unfold row_outcomes in *. rewrite EC, ED. unfold expected_of, qsum. cbn [map fold_right o_prob].
  assert (K : forall p lo hi lo' hi' lab, (0 <= p)%Q -> (lo <= lo')%Q -> (hi <= hi')%Q ->
    (p * o_mean (mkOutcome lab lo hi p) <= p * o_mean (mkOutcome lab lo' hi' p))%Q).
  { intros p lo hi lo' hi' lab Hp L1 L2. unfold o_mean. cbn.
    assert (M : ((lo + hi) / 2 <= (lo' + hi') / 2)%Q) by (apply Qdiv_mono; lra). setoid_replace (p * ((lo + hi) / 2))%Q with (((lo + hi) / 2) * p)%Q by ring.
    setoid_replace (p * ((lo' + hi') / 2))%Q with (((lo' + hi') / 2) * p)%Q by ring. apply Qmult_le_compat_r; assumption. }
  cbn [In] in P.
  pose proof (P _ (or_introl eq_refl)) as P1. pose proof (P _ (or_intror (or_introl eq_refl))) as P2.
  pose proof (P _ (or_intror (or_intror (or_introl eq_refl)))) as P3. pose proof (P _ (or_intror (or_intror (or_intror (or_introl eq_refl))))) as P4.
  cbn [o_prob] in P1, P2, P3, P4.
  repeat (apply Qplus_le_compat; [apply K; [assumption|apply range_rises; assumption|apply range_rises; assumption]|]).
  apply Qle_refl.
Qed.

(** ** Whole reports *)

Lemma compile_up g g' st st' l : gear_nonneg g -> better g g' -> stats_of g = Ok st -> stats_of g' = Ok st' -> Forall sane_hit l ->
  forall tr tr1 tr', foldM (compile_instance st) l tr = Ok tr1 -> Forall2 row_up (dt_rows tr) (dt_rows tr') -> dt_finalized tr' = dt_finalized tr ->
  exists tr1', foldM (compile_instance st') l tr' = Ok tr1' /\ Forall2 row_up (dt_rows tr1) (dt_rows tr1').
Proof.
  intros N B S S'. induction 1 as [|x l SH _ IH]; intros tr tr1 tr' H F E.
  - injection H as <-. exists tr'. split; [reflexivity|exact F].
  - cbn [foldM] in *. apply bind_ok in H as (tr2 & E2 & H). unfold compile_instance in E2. apply bind_ok in E2 as (r & Er & E2).
    destruct (row_rises g g' st st' x r N B S S' SH Er) as (r' & Er' & U). unfold compile_instance at 1. rewrite Er'. cbn [bind].
    unfold dt_add in *. rewrite E, <- (F2_length _ _ _ F). destruct (dt_finalized tr); [discriminate|]. destruct (CAPACITY <=? _); [discriminate|].
    injection E2 as <-. cbn [bind]. eapply IH; [exact H| |reflexivity]. cbn. apply Forall2_app; [exact F|]. constructor; [exact U|constructor].
Qed.
Lemma sort_sane l : Forall sane_hit l -> Forall sane_hit (sort_by di_time l).
Proof. intros F. apply Forall_forall. intros x I. rewrite Forall_forall in F. apply F, (sort_in _ _ _ I). Qed.
Lemma init_up g g' st st' l sim : gear_nonneg g -> better g g' -> stats_of g = Ok st -> stats_of g' = Ok st' -> Forall sane_hit l ->
  ds_init st l = Ok sim ->
  exists sim', ds_init st' l = Ok sim' /\ ds_instances sim' = ds_instances sim
    /\ Forall2 row_up (dt_rows (ds_tracker sim)) (dt_rows (ds_tracker sim')) /\ dt_finalized (ds_tracker sim') = dt_finalized (ds_tracker sim).
Proof.
  intros N B S S' F H. unfold ds_init in *. apply bind_ok in H as (tr & E & H). injection H as <-.
  destruct (compile_up g g' st st' _ N B S S' (sort_sane l F) dt_init tr dt_init E (Forall2_nil _) eq_refl) as (tr' & E' & U).
  rewrite E'. cbn [bind]. eexists. split; [reflexivity|]. cbn. auto.
Qed.

Lemma mapi_F2 {A A' B B'} (R : A -> A' -> Prop) (S : B -> B' -> Prop) f f' l l' : (forall i a a', R a a' -> S (f i a) (f' i a')) ->
  Forall2 R l l' -> forall i, Forall2 S (mapi_from f i l) (mapi_from f' i l').
Proof. intros H. induction 1; intros i; cbn; constructor; auto. Qed.
Definition cell_le (a b : Q * bool * bool) : Prop := (fst (fst a) <= fst (fst b))%Q.
Lemma map_F2 {A B C} (R : B -> C -> Prop) (f : A -> B) (g : A -> C) l : (forall a, R (f a) (g a)) -> Forall2 R (map f l) (map g l).
Proof. intros H. induction l; cbn; constructor; auto. Qed.
Lemma compute_up tr tr' n u m : (forall i j, drawn (u i j)) -> Forall2 row_up (dt_rows tr) (dt_rows tr') -> dt_finalized tr' = dt_finalized tr ->
  compute_damage tr n u = Ok m -> exists m', compute_damage tr' n u = Ok m' /\ Forall2 (Forall2 cell_le) m m'.
Proof.
  intros D F E H. unfold compute_damage in *. rewrite E. destruct (dt_finalized tr); [|discriminate]. injection H as <-. eexists. split; [reflexivity|].
  apply (mapi_F2 row_up); [|exact F]. intros i r r' U. apply map_F2. intros j. apply sample_rises; auto.
Qed.
Lemma qsum_le l l' : Forall2 Qle l l' -> (qsum l <= qsum l')%Q.
Proof. unfold qsum. induction 1; cbn; [apply Qle_refl|]. apply Qplus_le_compat; assumption. Qed.
Lemma F2_map {A A' B B'} (R : A -> A' -> Prop) (S : B -> B' -> Prop) f f' l l' : (forall a a', R a a' -> S (f a) (f' a')) ->
  Forall2 R l l' -> Forall2 S (map f l) (map f' l').
Proof. intros H. induction 1; cbn; constructor; auto. Qed.
Lemma nth_F2 {A B} (R : A -> B -> Prop) l l' j : Forall2 R l l' ->
  match nth_error l j, nth_error l' j with Some a, Some b => R a b | None, None => True | _, _ => False end.
Proof. intros F. revert j. induction F; intros [|j]; cbn; auto. apply IHF. Qed.
Lemma sampled_up m m' n : Forall2 (Forall2 cell_le) m m' -> Forall2 Qle (sampled_damage m n) (sampled_damage m' n).
Proof.
  intros F. unfold sampled_damage. apply map_F2. intros j. apply qsum_le, (F2_map (Forall2 cell_le)); [|exact F].
  intros a a' G. pose proof (nth_F2 _ _ _ j G) as K. destruct (nth_error a j) as [[[d c] h]|], (nth_error a' j) as [[[d' c'] h']|]; try contradiction;
    [exact K|apply Qle_refl].
Qed.
Lemma dps_up fight l l' : Forall2 Qle l l' -> Forall2 dps_le (sampled_dps fight l) (sampled_dps fight l').
Proof.
  unfold sampled_dps. apply F2_map. intros a a' L. unfold qltb. destruct (negb (Qle_bool fight 0)) eqn:P; [|exact I]. cbn.
  apply Qdiv_mono; [|exact L]. apply negb_true_iff in P. destruct (Qlt_le_dec 0 fight) as [H|H]; [exact H|]. apply Qle_bool_iff in H. congruence.
Qed.
Lemma ranges_up tr tr' u rs : Forall2 row_up (dt_rows tr) (dt_rows tr') -> dt_finalized tr' = dt_finalized tr ->
  damage_ranges tr u = Ok rs -> exists rs', damage_ranges tr' u = Ok rs' /\ List.length rs' = List.length rs.
Proof.
  intros F E H. unfold damage_ranges in *. rewrite E. destruct (dt_finalized tr); [|discriminate]. injection H as <-. eexists. split; [reflexivity|].
  rewrite !mapi_length. symmetry. exact (F2_length _ _ _ F).
Qed.

Lemma simulated_up g g' st st' l sim n u u' r : gear_nonneg g -> better g g' -> stats_of g = Ok st -> stats_of g' = Ok st' -> Forall sane_hit l ->
  (forall i j, drawn (u' i j)) -> ds_init st l = Ok sim -> run_simulator sim n u u' = Ok r ->
  exists sim' r', ds_init st' l = Ok sim' /\ run_simulator sim' n u u' = Ok r'
    /\ Forall2 Qle (rp_damage r) (rp_damage r') /\ Forall2 dps_le (rp_dps r) (rp_dps r')
    /\ rp_ids r' = rp_ids r /\ rp_targets r' = rp_targets r
    /\ (Forall (unit_rates st) l -> g_crit g' = g_crit g -> g_dh g' = g_dh g -> Forall2 Qle (rp_expected r) (rp_expected r')).
Proof.
  intros N B S S' F D I H. destruct (init_up g g' st st' l sim N B S S' F I) as (sim' & I' & EI & U & EF). exists sim'.
  unfold run_simulator in *. apply bind_ok in H as ([ex va] & Ee & H). apply bind_ok in H as (m & Em & H). injection H as <-.
  unfold expected_and_variance in *. apply bind_ok in Ee as (rs & Er & Ee).
  destruct (ranges_up _ _ u rs U EF Er) as (rs' & Er' & EL). rewrite Er'. cbn [bind].
  destruct (compute_up _ _ n u' m D U EF Em) as (m' & Em' & Fm). rewrite Em'.
  destruct rs as [|o rs]; [discriminate|]. destruct rs' as [|o' rs']; [discriminate|]. injection Ee as <- <-. cbn [bind].
  eexists. split; [exact I'|]. split; [reflexivity|]. cbn [rp_damage rp_dps rp_ids rp_targets rp_expected]. rewrite EI.
  split; [apply sampled_up, Fm|]. split; [apply dps_up, sampled_up, Fm|]. split; [reflexivity|]. split; [reflexivity|].
  intros UR EC ED. unfold damage_ranges in Er, Er'. rewrite EF in Er'. destruct (dt_finalized (ds_tracker sim)); [|discriminate].
  apply ok_inj in Er. apply ok_inj in Er'.
  change (Forall2 Qle (map expected_of (o :: rs)) (map expected_of (o' :: rs'))). rewrite <- Er, <- Er'. clear Er Er'.
  destruct (sim_rows _ _ _ I) as (ES & _ & _ & FR). destruct (sim_rows _ _ _ I') as (_ & _ & _ & FR').
  assert (RT : ps_crit_rate st' = ps_crit_rate st /\ ps_crit_bonus st' = ps_crit_bonus st /\ ps_dh_rate st' = ps_dh_rate st).
  { revert B S S' EC ED. clear. destruct g as [wd dl mn det dh crit sp job ver ten roles heal lev].
    destruct g' as [wd' dl' mn' det' dh' crit' sp' job' ver' ten' roles' heal' lev'].
    unfold better, stats_of, make_stats. cbn -[dget]. intros (_&_&_&_&_&_&_&_&_&_&E1&E2&E3) H H' E4 E5. subst.
    apply bind_ok in H as (c & Ec & H). apply bind_ok in H as (jm & Ej & H). apply bind_ok in H as (red & Er & H). apply bind_ok in H as (w & Ew & H).
    rewrite Ec, Ej, Er in H'. cbn -[dget] in H'. apply bind_ok in H' as (w' & Ew' & H'). injection H as <-. injection H' as <-. cbn. auto. }
  destruct RT as (RT1 & RT2 & RT3).
  assert (K : Forall2 (fun r r' => row_up r r' /\ r_crit_bonus r' = r_crit_bonus r /\ r_crit_rate r' = r_crit_rate r /\ r_dh_rate r' = r_dh_rate r
                                   /\ in_unit (r_crit_rate r) /\ in_unit (r_dh_rate r)) (dt_rows (ds_tracker sim)) (dt_rows (ds_tracker sim'))).
  { rewrite EI in FR'. assert (UR' : Forall (unit_rates st) (ds_instances sim)).
    { rewrite ES. apply Forall_forall. intros x X. rewrite Forall_forall in UR. apply UR, (sort_in _ _ _ X). }
    clear - U FR FR' UR' RT1 RT2 RT3. revert FR FR' UR'. generalize (ds_instances sim). induction U as [|r r' l l' X _ IH]; intros is FR FR' UR; [constructor|].
    inversion FR as [|x ? is' ? H1 H2]; subst. inversion FR' as [|? ? ? ? H3 H4]; subst. inversion UR as [|? ? H5 H6]; subst.
    constructor; [|exact (IH _ H2 H4 H6)]. split; [exact X|]. apply row_of_ok in H1 as (d & b & Ed & _ & E1 & _). apply row_of_ok in H3 as (d' & b' & Ed' & _ & E3 & _).
    rewrite Ed in Ed'. injection Ed' as <-. destruct (H5 _ _ _ _ Ed E1) as [U1 U2].
    assert (E : crit_rates_and_bonuses st' d (di_modifier x) (di_effects x) = crit_rates_and_bonuses st d (di_modifier x) (di_effects x)).
    { unfold crit_rates_and_bonuses. rewrite RT1, RT2, RT3. reflexivity. }
    rewrite E, E1 in E3. injection E3 as E4 E5 E6. split; [auto|]. split; [auto|]. split; [auto|]. split; assumption. }
  apply (F2_map (fun a b => expected_of a <= expected_of b)%Q); [auto|].
  revert K. generalize 0%nat. intros i0 K. eapply mapi_F2; [|exact K]. cbv beta.
  intros i r r' (H1 & H2 & H3 & H4 & H5 & H6). apply expected_rises; assumption.
Qed.

Lemma better_stats g g' st : gear_nonneg g -> better g g' -> stats_of g = Ok st -> exists st', stats_of g' = Ok st'.
Proof. intros N B S. destruct (better_up g g' st N B S) as (st' & S' & _). eauto. Qed.

Lemma report_up g g' st lib snap au ig fs w target l hits n u u' r : gear_nonneg g -> better g g' -> same_pace g g' -> stats_of g = Ok st ->
  hits_with st lib snap au ig fs w target l = Ok hits -> Forall sane_hit hits -> (forall i j, drawn (u' i j)) ->
  report_with st lib snap au ig fs w target l n u u' = Ok r ->
  exists st' r', stats_of g' = Ok st' /\ report_with st' lib snap au ig fs w target l n u u' = Ok r'
    /\ Forall2 Qle (rp_damage r) (rp_damage r') /\ Forall2 dps_le (rp_dps r) (rp_dps r')
    /\ rp_ids r' = rp_ids r /\ rp_targets r' = rp_targets r
    /\ (Forall (unit_rates st) hits -> g_crit g' = g_crit g -> g_dh g' = g_dh g -> Forall2 Qle (rp_expected r) (rp_expected r')).
Proof.
  intros N B P S Hh F D H. destruct (better_stats g g' st N B S) as (st' & S'). exists st'.
  pose proof (paced g g' st st' P S S') as EP. unfold hits_with in Hh. unfold report_with in *.
  rewrite EP. rewrite init_regear. destruct (rb_init st lib snap au ig fs w target) as [b|] eqn:EI; [|discriminate]. cbn [bind rmap] in *.
  rewrite follow_regear. destruct (follow b l) as [b1|] eqn:EF; [|discriminate]. cbn [bind rmap] in *.
  unfold report_of in *. rewrite run_regear. destruct (get_skill_timing b1) as [b2|]; [|discriminate]. cbn [bind rmap] in *.
  destruct (follow_keeps l _ _ EF) as (E1 & E2 & _). unfold rb_init in EI. apply bind_ok in EI as (pr & _ & EI). injection EI as <-. cbn [b_stats b_library] in E1, E2.
  rewrite E1, E2 in H. change (b_library (restat st' b1)) with (b_library b1). change (b_stats (restat st' b1)) with (regear (b_stats b1) st').
  rewrite E1, E2. change (b_queue (restat st' b2)) with (b_queue b2). change (db_init (regear st st') lib) with (db_init st lib).
  destruct (db_init st lib) as [tk|]; [|discriminate]. cbn [bind] in *.
  destruct (get_damage_instances tk (b_queue b2)) as [[[tk' qu] out]|]; [|discriminate]. cbn [bind] in *. injection Hh as ->.
  apply bind_ok in H as (sim & Es & H). rewrite <- EP.
  destruct (simulated_up g g' st st' hits sim n u u' r N B S S' F D Es H) as (sim' & r' & Es' & Er' & X). exists r'. rewrite Es'. cbn [bind].
  split; [exact S'|]. split; [exact Er'|exact X].
Qed.

(** ** Kill times *)

Definition restated (x y : builder * rotation_draws) : Prop :=
  snd y = snd x
  /\ exists g g' st', stats_of g = Ok (b_stats (fst x)) /\ stats_of g' = Ok st' /\ gear_nonneg g /\ better g g' /\ same_pace g g'
     /\ fst y = with_stats st' (fst x).

Definition rows_up (a b : Z * list Q) : Prop := fst b = fst a /\ Forall2 Qle (snd a) (snd b).
Lemma cell_up j a b : rows_up a b -> (cell j a <= cell j b)%Q.
Proof.
  intros [_ F]. unfold cell. pose proof (nth_F2 _ _ _ j F) as K.
  destruct (nth_error (snd a) j) as [x|] eqn:E1, (nth_error (snd b) j) as [y|] eqn:E2; try contradiction.
  - rewrite (nth_error_nth _ _ _ E1), (nth_error_nth _ _ _ E2). exact K.
  - apply nth_error_None in E1. apply nth_error_None in E2. rewrite !nth_overflow by assumption. apply Qle_refl.
Qed.
Lemma dealt_up j t l l' : Forall2 rows_up l l' -> (dealt_by j t l <= dealt_by j t l')%Q.
Proof.
  unfold dealt_by. intros F. apply qsum_le. induction F as [|a b l l' X _ IH]; cbn; [constructor|]. pose proof X as [E _]. rewrite E.
  destruct (fst a <=? t); [|exact IH]. cbn. constructor; [apply cell_up, X|exact IH].
Qed.
Lemma times_up l l' : Forall2 rows_up l l' -> map fst l' = map fst l.
Proof. induction 1 as [|a b l l' [E _] _ IH]; cbn; congruence. Qed.
Lemma fates_up hp rows rows' n deaths deaths' : Forall2 rows_up rows rows' -> fates hp rows n deaths -> fates hp rows' n deaths' ->
  Forall2 not_earlier deaths' deaths.
Proof.
  intros U (E & F) (E' & F'). rewrite <- E in E'. clear E n.
  assert (G : forall j o o', nth_error deaths j = Some o -> nth_error deaths' j = Some o' -> not_earlier o' o).
  { intros j o o' H H'. specialize (F j o H). specialize (F' j o' H'). destruct o as [t|], o' as [t'|]; cbn in *; auto.
    - destruct F as (I & C & _). destruct F' as (I' & _ & B'). rewrite <- (times_up _ _ U) in I. destruct (Z_le_gt_dec t' t) as [K|K]; [exact K|].
      specialize (B' t I ltac:(lia)). pose proof (dealt_up j t _ _ U). lra.
    - destruct F as (I & C & _). rewrite <- (times_up _ _ U) in I. specialize (F' t I). pose proof (dealt_up j t _ _ U). lra. }
  clear F F' U. revert deaths' E' G. induction deaths as [|o l IH]; intros [|o' l'] E G; try discriminate; constructor.
  - apply (G 0%nat); reflexivity.
  - apply IH; [injection E; auto|]. intros j. apply (G (Datatypes.S j)).
Qed.

Lemma mapM_i_F2 {A A' B B'} (R : A -> A' -> Prop) (S : B -> B' -> Prop) (f : nat -> A -> res B) (f' : nat -> A' -> res B') l l' :
  (forall i a a' b, R a a' -> f i a = Ok b -> exists b', f' i a' = Ok b' /\ S b b') ->
  Forall2 R l l' -> forall i bs, mapM_i f i l = Ok bs -> exists bs', mapM_i f' i l' = Ok bs' /\ Forall2 S bs bs'.
Proof.
  intros H. induction 1 as [|a a' l l' X _ IH]; intros i bs E; cbn in *.
  - injection E as <-. eauto.
  - apply bind_ok in E as (b & Eb & E). apply bind_ok in E as (bs1 & E1 & E). injection E as <-.
    destruct (H i a a' b X Eb) as (b' & Eb' & Y). destruct (IH _ _ E1) as (bs' & E' & Z). rewrite Eb'. cbn. rewrite E'. cbn. eauto.
Qed.
Lemma combine_F2 {A B B'} (R : B -> B' -> Prop) (l : list A) m m' : Forall2 R m m' ->
  Forall2 (fun x y => fst y = fst x /\ R (snd x) (snd y)) (combine l m) (combine l m').
Proof. intros F. revert l. induction F; intros [|x0 l0]; cbn; constructor; auto. Qed.
Lemma rotation_up n b b' u rows g g' st' : stats_of g = Ok (b_stats b) -> stats_of g' = Ok st' -> gear_nonneg g -> better g g' -> same_pace g g' ->
  sane_rotation b -> (forall i j, drawn (rd_sample u i j)) -> rotation_rows n b u = Ok (b', rows) ->
  exists b'' rows', rotation_rows n (with_stats st' b) u = Ok (b'', rows') /\ Forall2 rows_up rows rows'.
Proof.
  intros S S' N B P SR D H. pose proof (paced g g' _ st' P S S') as EP. unfold rotation_rows in *. cbn [with_stats b_stats b_library].
  apply bind_ok in H as (tk & Et & H). apply bind_ok in H as (b1 & Eb & H). apply bind_ok in H as ([[tk' qu'] insts] & Ei & H).
  apply bind_ok in H as (sim & Es & H). apply bind_ok in H as (rp & Er & H). apply bind_ok in H as (m & Em & H).
  apply bind_ok in H as (rs & Ers & H). injection H as <- <-.
  assert (Et' : db_init st' (b_library b) = Ok tk) by (rewrite EP; exact Et).
  assert (Eb' : get_skill_timing (with_stats st' b) = Ok (restat st' b1)).
  { assert (R : with_stats st' b = restat st' b) by (unfold restat; rewrite <- EP; reflexivity). rewrite R, run_regear, Eb. reflexivity. }
  rewrite Et', Eb'. cbn [bind]. change (b_queue (restat st' b1)) with (b_queue b1). rewrite Ei. cbn [bind].
  pose proof (SR _ _ _ _ _ Et Eb Ei) as F.
  destruct (init_up g g' _ st' insts sim N B S S' F Es) as (sim' & Es' & EI & U & EF).
  destruct (simulated_up g g' _ st' insts sim n _ _ rp N B S S' F D Es Er) as (sim'' & rp' & Es'' & Er' & _).
  rewrite Es' in *. injection Es'' as <-. cbn [bind]. rewrite Er'. cbn [bind].
  destruct (compute_up _ _ n _ m D U EF Em) as (m' & Em' & Fm). rewrite Em'. cbn [bind]. rewrite EI.
  edestruct (@mapM_i_F2 (instance * list (Q * bool * bool)) (instance * list (Q * bool * bool)) (Z * list Q) (Z * list Q)
    (fun x y => fst y = fst x /\ Forall2 cell_le (snd x) (snd y)) rows_up) as (rs' & Ers' & X); [|apply (combine_F2 _ (ds_instances sim) _ _ Fm)|exact Ers|].
  2:{ rewrite Ers'. cbn [bind]. eauto. }
  intros i [inst cells] [inst' cells'] [t row] [E1 E2] E. cbn [fst snd] in E1, E2. subst inst'. apply bind_ok in E as (c & Ec & E). injection E as <- <-.
  unfold lb_row in *. destruct (contains "LB" (sk_name (di_skill inst))).
  - rewrite Ec. cbn [bind]. eexists. split; [reflexivity|]. split; [reflexivity|]. cbn. clear. induction c; constructor; [apply Qle_refl|assumption].
  - injection Ec as <-. cbn [bind]. eexists. split; [reflexivity|]. split; [reflexivity|]. cbn. revert E2. apply F2_map. auto.
Qed.

Lemma concat_F2 {A B} (R : A -> B -> Prop) l l' : Forall2 (Forall2 R) l l' -> Forall2 R (List.concat l) (List.concat l').
Proof. induction 1; cbn; [constructor|apply Forall2_app; assumption]. Qed.
Lemma mapM_F2 {A B} (f : A -> res B) l : forall l', mapM f l = Ok l' -> Forall2 (fun a b => f a = Ok b) l l'.
Proof.
  induction l as [|a l IH]; intros l' E; cbn in E; [injection E as <-; constructor|].
  apply bind_ok in E as (b & Eb & E). apply bind_ok in E as (bs & Es & E). injection E as <-. constructor; auto.
Qed.
Lemma F2_mapM {A B} (f : A -> res B) l l' : Forall2 (fun a b => f a = Ok b) l l' -> mapM f l = Ok l'.
Proof. induction 1 as [|a b l l' E _ IH]; cbn; [reflexivity|]. rewrite E. cbn. rewrite IH. reflexivity. Qed.

Lemma kills_up hp rots rots' n argsort ks : sorts argsort -> Forall2 restated rots rots' ->
  Forall (fun bu => sane_rotation (fst bu) /\ draws_ok (snd bu)) rots ->
  estimate_kill_time hp rots n argsort = Ok ks ->
  exists ks' deaths deaths', estimate_kill_time hp rots' n argsort = Ok ks' /\ ks = reported deaths /\ ks' = reported deaths'
    /\ Forall2 not_earlier deaths' deaths.
Proof.
  intros A R SN H.
  assert (K : forall parts, mapM (fun bu => rotation_rows n (fst bu) (snd bu)) rots = Ok parts ->
    exists parts', mapM (fun bu => rotation_rows n (fst bu) (snd bu)) rots' = Ok parts'
      /\ Forall2 rows_up (List.concat (map snd parts)) (List.concat (map snd parts'))
      /\ cells_nonneg (List.concat (map snd parts)) /\ cells_nonneg (List.concat (map snd parts'))).
  { clear H. induction R as [|[b u] [b' u'] l l' X _ IH]; intros parts E; cbn [mapM fst snd] in *.
    - injection E as <-. exists []. cbn. repeat split; try constructor; intros ? ? [].
    - apply bind_ok in E as ([b1 rows] & Eb & E). apply bind_ok in E as (ps & Es & E). injection E as <-. cbv beta in Eb. cbn [fst snd] in Eb.
      inversion SN as [|? ? [SR DR] SN']; subst. cbn [fst snd] in SR, DR.
      destruct X as (EU & g & g' & st' & S & S' & N & B & P & EB). cbn [fst snd] in *. subst u' b'.
      destruct (rotation_up n b b1 u rows g g' st' S S' N B P SR (proj1 DR) Eb) as (b2 & rows' & Eb' & U). rewrite Eb'. cbn [bind].
      destruct (IH SN' _ Es) as (ps' & Es' & U' & N1 & N2). rewrite Es'. cbn [bind]. eexists. split; [reflexivity|]. cbn [map snd List.concat].
      assert (NR : cells_nonneg rows).
      { apply (rotation_cells_nonneg n b u b1 rows g S); [apply N| |exact DR|exact Eb].
        intros tk r tk' qu hits E1 E2 E3. apply Forall_impl with sane_hit; [intros x Y; apply Y|]. exact (SR _ _ _ _ _ E1 E2 E3). }
      assert (NR' : cells_nonneg rows').
      { intros r x Ir Ix. assert (Q : exists r0 y, In r0 rows /\ In y (snd r0) /\ (y <= x)%Q).
        { clear - U Ir Ix. induction U as [|a c l l' [_ V] _ IH]; [destruct Ir|]. destruct Ir as [->|Ir].
          - assert (W : exists y, In y (snd a) /\ (y <= x)%Q).
            { clear - V Ix. induction V as [|p q l l' L _ IH]; [destruct Ix|]. destruct Ix as [->|Ix]; [exists p; cbn; auto|].
              destruct (IH Ix) as (y & Y1 & Y2). exists y. cbn. auto. }
            destruct W as (y & W1 & W2). exists a, y. cbn. auto.
          - destruct (IH Ir) as (r0 & y & Y1 & Y2 & Y3). exists r0, y. cbn. auto. }
        destruct Q as (r0 & y & Q1 & Q2 & Q3). apply Qle_trans with y; [exact (NR r0 y Q1 Q2)|exact Q3]. }
      split; [apply Forall2_app; assumption|]. split; intros r x I; apply in_app_iff in I as [I|I]; eauto. }
  unfold estimate_kill_time in H. destruct rots as [|bu rots]; [discriminate|]. apply bind_ok in H as (parts & E & H).
  destruct (K parts E) as (parts' & E' & U & N1 & N2).
  assert (H1 : estimate_kill_time hp (bu :: rots) n argsort = Ok ks) by (unfold estimate_kill_time; rewrite E; exact H).
  assert (H2 : exists ks', estimate_kill_time hp rots' n argsort = Ok ks').
  { unfold estimate_kill_time. destruct rots' as [|bu' rots']; [inversion R|]. rewrite E'. cbn [bind]. eauto. }
  destruct H2 as (ks' & H2). exists ks'.
  destruct (estimate_fates _ _ _ _ _ A H1) as (p1 & F1 & G1). destruct (estimate_fates _ _ _ _ _ A H2) as (p2 & F2 & G2).
  assert (p1 = parts). { apply F2_mapM in F1. rewrite F1 in E. injection E. auto. }
  assert (p2 = parts'). { apply F2_mapM in F2. rewrite F2 in E'. injection E'. auto. }
  subst p1 p2. destruct (G1 N1) as (deaths & D1 & ->). destruct (G2 N2) as (deaths' & D2 & ->).
  exists deaths, deaths'. split; [exact H2|]. split; [reflexivity|]. split; [reflexivity|]. exact (fates_up hp _ _ n _ _ U D1 D2).
Qed.
