(** * Expected damage as the rates rise (C91) *)

From Coq Require Import ZArith QArith Qabs List String Bool Lia Lqa Permutation Morphisms Setoid.
From Verif Require Import Base BaseFacts Float FloatFacts Types Lookup StatusEffect Stats Library Events Rotation DamageBuild Damage SpecHit HitFacts HitOutcomes HitProps SimFacts
  SpecGame SpecReplay SpecShuffle SpecTimeline SpecIdle SpecCause SpecLater SpecRun SpecMove SpecNeed NeedFacts SpecGear GearFacts GearDamage GearProps SpecBuff BuffDamage BuffProps BuffGame RunProps IdleFacts ShuffleFacts MoveGame IdleGame GameLib GameProps SpecStrike StrikeFacts StrikeGame SpecMean.
Import ListNotations.
Open Scope Z_scope.

Record row_better (r r' : row) : Prop := mkRowBetter {
  wb_base : btw (r_base r) (r_base r');
  wb_bonus : btw (r_crit_bonus r) (r_crit_bonus r');
  wb_crit : (r_crit_rate r <= r_crit_rate r')%Q;
  wb_dh : (r_dh_rate r <= r_dh_rate r')%Q;
  wb_trait : btw (r_trait r) (r_trait r');
  wb_mult : btw (r_mult r) (r_mult r')
}.
Lemma up_better r r' : row_up r r' -> row_better r r'.
Proof.
  intros [A B C D [E E'] [F F'] _]. constructor; try assumption.
  - rewrite E'. apply btw_same, E. - rewrite F'. apply btw_same, F.
Qed.
Lemma buffed_better r r' : row_buffed r r' -> row_better r r'.
Proof.
  intros [A [B B'] C D [E E'] F _]. constructor; try assumption.
  - rewrite B'. apply btw_same, B. - rewrite E'. apply btw_same, E.
Qed.
Lemma btw_trans a b c : btw a b -> btw b c -> btw a c.
Proof. intros [? ?] [? ?]. split; [assumption|]. eapply Qle_trans; eassumption. Qed.
Lemma better_trans r r' r'' : row_better r r' -> row_better r' r'' -> row_better r r''.
Proof.
  intros [A B C D E F] [A' B' C' D' E' F']. constructor; solve [eapply btw_trans; eassumption | eapply Qle_trans; eassumption].
Qed.

(** ** Outcomes *)

Lemma after_roll_up r r' t t' c d c' d' : row_better r r' -> btw t t' -> (c = true -> c' = true) -> (d = true -> d' = true) ->
  btw (after_roll r t c d) (after_roll r' t' c' d').
Proof.
  intros U T C D. unfold after_roll. cbv zeta. apply btw_ffloor, btw_fmul; [|apply U]. apply btw_ffloor, btw_fmul; [|apply U].
  assert (H1 : btw (fmul (r_crit_bonus r) (qbool c)) (fmul (r_crit_bonus r') (qbool c'))) by (apply btw_fmul; [apply U|apply qbool_le, C]).
  assert (H2 : btw (fmul DH_DAMAGE_MULT_BONUS (qbool d)) (fmul DH_DAMAGE_MULT_BONUS (qbool d'))) by (apply btw_fmul; [apply btw_same, DH_nonneg|apply qbool_le, D]).
  assert (H3 := btw_fadd _ _ _ _ T (btw_ffloor _ _ (btw_fmul _ _ _ _ T H1))).
  exact (btw_fadd _ _ _ _ H3 (btw_ffloor _ _ (btw_fmul _ _ _ _ H3 H2))).
Qed.
Definition mid (r : row) (c d : bool) : Q := ((after_roll r (low_init r) c d + after_roll r (high_init r) c d) / 2)%Q.
Lemma mid_up r r' c d c' d' : row_better r r' -> (c = true -> c' = true) -> (d = true -> d' = true) -> btw (mid r c d) (mid r' c' d').
Proof.
  intros U C D.
  assert (LO : btw (low_init r) (low_init r')) by (apply btw_ffloor, btw_fmul; [apply btw_same, dec_nonneg; lia|apply U]).
  assert (HI : btw (high_init r) (high_init r')) by (apply btw_ffloor, btw_fmul; [apply btw_same, dec_nonneg; lia|apply U]).
  destruct (after_roll_up r r' _ _ c d c' d' U LO C D) as [A B]. destruct (after_roll_up r r' _ _ c d c' d' U HI C D) as [A' B'].
  unfold mid. split; [apply Qle_shift_div_l; lra|]. apply Qdiv_mono; lra.
Qed.

Definition chance (r : row) (c d : bool) : Q :=
  fmul (if c then r_crit_rate r else fsub 1 (r_crit_rate r)) (if d then r_dh_rate r else fsub 1 (r_dh_rate r)).
Definition rate (r : row) (c d : bool) : Q :=
  ((if c then r_crit_rate r else 1 - r_crit_rate r) * (if d then r_dh_rate r else 1 - r_dh_rate r))%Q.
Lemma chance_near r c d : (Qabs (chance r c d - rate r c d) <= pow2 (-51) * Qabs (rate r c d))%Q.
Proof.
  assert (K : exists o, In o (row_outcomes r (half_draws 0)) /\ o_label o = label_of c d /\ o_prob o = chance r c d).
  { destruct c, d; unfold row_outcomes; cbn [In]; eexists; (split; [|split]).
    - right; right; right; left; reflexivity. - reflexivity. - reflexivity.
    - right; left; reflexivity. - reflexivity. - reflexivity.
    - right; right; left; reflexivity. - reflexivity. - reflexivity.
    - left; reflexivity. - reflexivity. - reflexivity. }
  destruct K as (o & I & L & <-). exact (prob_each r (half_draws 0) o c d I L).
Qed.

#[local] Instance after_roll_compat : forall r, Proper (Qeq ==> eq ==> eq ==> Qeq) (after_roll r).
Proof. intros r t t' E ? b -> ? c ->. unfold after_roll. cbv zeta. rewrite E. reflexivity. Qed.
Lemma mean_form r u : fair_draws u -> (expected_of (row_outcomes r u) ==
  chance r false false * mid r false false + (chance r true false * mid r true false + (chance r false true * mid r false true + chance r true true * mid r true true)))%Q.
Proof.
  intros D.
  assert (K : forall i j c d lab p, (i < 8)%nat -> (j < 8)%nat ->
    (o_mean (mkOutcome lab (range_end r (low_init r) (rate_for c) (rate_for d) (u i)) (range_end r (high_init r) (rate_for c) (rate_for d) (u j)) p) == mid r c d)%Q).
  { intros i j c d lab p Li Lj. destruct (D i Li) as [A1 A2]. destruct (D j Lj) as [B1 B2].
    destruct (range_end_spec r (dec 95 100) c d _ A1 A2) as (t & Et & F1). destruct (range_end_spec r (dec 105 100) c d _ B1 B2) as (t' & Et' & F2).
    unfold o_mean, mid, low_init, high_init. cbn [o_low o_high]. rewrite F1, F2, Et, Et'. reflexivity. }
  pose proof (K 0 1 false false)%nat as K0. pose proof (K 2 3 true false)%nat as K1. pose proof (K 4 5 false true)%nat as K2. pose proof (K 6 7 true true)%nat as K3.
  cbn [rate_for] in K0, K1, K2, K3.
  unfold expected_of, row_outcomes, qsum. cbn [map fold_right]. rewrite K0, K1, K2, K3 by lia. cbn [o_prob]. unfold chance. ring.
Qed.

Lemma mix a b c a' b' c' : (0 <= c -> c <= c' -> c' <= 1 -> a <= a' -> b <= b' -> a' <= b' -> (1 - c) * a + c * b <= (1 - c') * a' + c' * b')%Q.
Proof. intros. nra. Qed.
Lemma near_low x y : (0 <= y -> Qabs (x - y) <= pow2 (-51) * Qabs y -> y * (1 - pow2 (-51)) <= x /\ x <= y * (1 + pow2 (-51)))%Q.
Proof. intros N H. rewrite (Qabs_pos y N) in H. apply Qabs_Qle_condition in H as [A B]. split; lra. Qed.

Lemma mean_bounds r u : fair_draws u -> in_unit (r_crit_rate r) -> in_unit (r_dh_rate r) -> row_better r r ->
  let s := (rate r false false * mid r false false + (rate r true false * mid r true false + (rate r false true * mid r false true + rate r true true * mid r true true)))%Q in
  (s * (1 - pow2 (-51)) <= expected_of (row_outcomes r u) <= s * (1 + pow2 (-51)))%Q.
Proof.
  intros D [C0 C1] [D0 D1] W s. rewrite (mean_form r u D).
  assert (P : forall c d, (0 <= rate r c d)%Q) by (intros [|] [|]; unfold rate; apply Qmult_le_0_compat; lra).
  assert (M : forall c d, (0 <= mid r c d)%Q) by (intros c d; apply (mid_up r r c d c d W); auto).
  assert (K : forall c d, (rate r c d * mid r c d * (1 - pow2 (-51)) <= chance r c d * mid r c d /\ chance r c d * mid r c d <= rate r c d * mid r c d * (1 + pow2 (-51)))%Q).
  { intros c d. destruct (near_low _ _ (P c d) (chance_near r c d)) as [A B]. specialize (M c d).
    pose proof (Qmult_le_compat_r _ _ _ A M) as A'. pose proof (Qmult_le_compat_r _ _ _ B M) as B'. split; [eapply Qle_trans; [|exact A']|eapply Qle_trans; [exact B'|]]; apply Qle_lteq; right; ring. }
  destruct (K false false) as [A1 B1], (K true false) as [A2 B2], (K false true) as [A3 B3], (K true true) as [A4 B4]. unfold s. split; lra.
Qed.

Lemma rounding s s' e e' : (0 <= s -> s <= s' -> e <= s * (1 + pow2 (-51)) -> s' * (1 - pow2 (-51)) <= e' -> e * (1 - pow2 (-50)) <= e')%Q.
Proof.
  intros N L A B. change (pow2 (-50)) with (1 # 1125899906842624). change (pow2 (-51)) with (1 # 2251799813685248) in *. lra.
Qed.

Lemma mean_rises r r' u u' : fair_draws u -> fair_draws u' -> row_better r r' -> in_unit (r_crit_rate r) -> in_unit (r_dh_rate r) -> in_unit (r_crit_rate r') -> in_unit (r_dh_rate r') ->
  no_less (expected_of (row_outcomes r u)) (expected_of (row_outcomes r' u')).
Proof.
  intros D D' U C0 D0 C1 D1.
  assert (S : forall a b : row, row_better a b -> row_better a a /\ row_better b b).
  { intros a b [[A1 A2] [B1 B2] ? ? [E1 E2] [F1 F2]]. split; constructor; try apply Qle_refl; apply btw_same; try assumption.
    - exact (Qle_trans _ _ _ A1 A2). - exact (Qle_trans _ _ _ B1 B2). - exact (Qle_trans _ _ _ E1 E2). - exact (Qle_trans _ _ _ F1 F2). }
  destruct (S _ _ U) as [W W']. destruct (mean_bounds r u D C0 D0 W) as [_ B]. destruct (mean_bounds r' u' D' C1 D1 W') as [B' _].
  refine (rounding _ _ _ _ _ _ B B').
  - destruct C0, D0. assert (M : forall c d, (0 <= mid r c d)%Q) by (intros c d; apply (mid_up r r c d c d W); auto).
    assert (P : forall c d, (0 <= rate r c d * mid r c d)%Q) by (intros c d; apply Qmult_le_0_compat; [destruct c, d; unfold rate; apply Qmult_le_0_compat; lra|apply M]).
    pose proof (P false false). pose proof (P true false). pose proof (P false true). pose proof (P true true). lra.
  - destruct C0 as [c0 c1], D0 as [d0 d1], C1 as [c0' c1'], D1 as [d0' d1']. pose proof (wb_crit _ _ U) as Lc. pose proof (wb_dh _ _ U) as Ld.
    assert (M : forall c d, (mid r c d <= mid r' c d)%Q) by (intros c d; apply (mid_up r r' c d c d U); auto).
    assert (X : forall c d c' d', (c = true -> c' = true) -> (d = true -> d' = true) -> (mid r' c d <= mid r' c' d')%Q) by (intros; apply (mid_up r' r'); auto).
    pose proof (mix (mid r false false) (mid r true false) (r_crit_rate r) (mid r' false false) (mid r' true false) (r_crit_rate r') c0 Lc c1' (M _ _) (M _ _) (X _ _ _ _ (fun _ => eq_refl) (fun e => e))) as H1.
    pose proof (mix (mid r false true) (mid r true true) (r_crit_rate r) (mid r' false true) (mid r' true true) (r_crit_rate r') c0 Lc c1' (M _ _) (M _ _) (X _ _ _ _ (fun _ => eq_refl) (fun e => e))) as H2.
    assert (H3 : ((1 - r_crit_rate r') * mid r' false false + r_crit_rate r' * mid r' true false <= (1 - r_crit_rate r') * mid r' false true + r_crit_rate r' * mid r' true true)%Q).
    { pose proof (X false false false true (fun e => e) (fun _ => eq_refl)) as Y1. pose proof (X true false true true (fun e => e) (fun _ => eq_refl)) as Y2.
      pose proof (Qmult_le_compat_r _ _ (1 - r_crit_rate r')%Q Y1 ltac:(lra)). pose proof (Qmult_le_compat_r _ _ (r_crit_rate r')%Q Y2 c0'). lra. }
    pose proof (mix _ _ (r_dh_rate r) _ _ (r_dh_rate r') d0 Ld d1' H1 H2 H3) as H4. unfold rate.
    eapply Qle_trans; [|eapply Qle_trans; [exact H4|]]; apply Qle_lteq; right; ring.
Qed.

(** ** Hits *)

Lemma unit_row st x r : unit_rates st x -> row_of st x = Ok r -> in_unit (r_crit_rate r) /\ in_unit (r_dh_rate r).
Proof. intros U H. apply row_of_ok in H as (d & b & Ed & _ & Er & _). exact (U _ _ _ _ Ed Er). Qed.

(** Better gear, better effects, or both. *)
Theorem hit_mean g g' st st' x x' r r' u u' :
  gear_nonneg g -> gear_nonneg g' -> better g g' -> stats_of g = Ok st -> stats_of g' = Ok st' -> sane_hit x -> boosted_hit x x' ->
  unit_rates st x -> unit_rates st' x' -> row_of st x = Ok r -> row_of st' x' = Ok r' -> fair_draws u -> fair_draws u' ->
  no_less (expected_of (row_outcomes r u)) (expected_of (row_outcomes r' u')).
Proof.
  intros N N' B S S' SH BH U U' R R' D D'. destruct (row_rises g g' st st' x r N B S S' SH R) as (r1 & R1 & W).
  destruct (row_buff g' st' x x' r1 N' S' SH BH R1) as (r2 & R2 & W'). rewrite R' in R2. injection R2 as <-.
  destruct (unit_row _ _ _ U R) as [A1 A2]. destruct (unit_row _ _ _ U' R') as [A3 A4].
  apply mean_rises; try assumption. exact (better_trans _ _ _ (up_better _ _ W) (buffed_better _ _ W')).
Qed.

(** ** Reports *)

Lemma fair_at u i : fair u -> fair_draws (u i).
Proof. intros F k _. apply F. Qed.
Lemma half_fair : fair_draws (half_draws 0).
Proof. intros k _. cbn. lra. Qed.
Definition fair_mean (st : stats) (x : instance) : Q := match row_of st x with Ok r => expected_of (row_outcomes r (half_draws 0)) | Err _ => 0%Q end.

Lemma report_rows st lib snap au ig fs w target l n u u' r hits : report_with st lib snap au ig fs w target l n u u' = Ok r ->
  hits_with st lib snap au ig fs w target l = Ok hits ->
  exists rows, Forall2 (fun x c => row_of st x = Ok c) (sort_by di_time hits) rows
    /\ rp_expected r = mapi_from (fun i c => expected_of (row_outcomes c (u i))) 0 rows.
Proof.
  unfold report_with, hits_with, report_of. intros H G. apply bind_ok in H as (b & E & H). rewrite E in G. cbn [bind] in G.
  apply bind_ok in H as (b1 & F & H). rewrite F in G. cbn [bind] in G. apply bind_ok in H as (b2 & T & H). rewrite T in G. cbn [bind] in G.
  destruct (follow_keeps l _ _ F) as (K1 & K2 & _). rewrite K1, K2 in H. unfold rb_init in E. apply bind_ok in E as (pr & _ & E). injection E as <-. cbn [b_stats b_library] in H.
  apply bind_ok in H as (tk & I & H). rewrite I in G. cbn [bind] in G. apply bind_ok in H as ([[tk' qu] out] & A & H). rewrite A in G. cbn [bind] in G. injection G as <-.
  apply bind_ok in H as (sim & Z & H). destruct (sim_rows _ _ _ Z) as (ES & _ & EF & FR). rewrite ES in FR. exists (dt_rows (ds_tracker sim)). split; [exact FR|].
  unfold run_simulator in H. apply bind_ok in H as ([ex va] & X & H). apply bind_ok in H as (m & _ & H). injection H as <-. cbn [rp_expected].
  unfold expected_and_variance, damage_ranges in X. rewrite EF in X. cbn [bind] in X. destruct (dt_rows (ds_tracker sim)) as [|c cs]; [discriminate|].
  cbn [mapi_from] in X. injection X as <- _. clear. cbn [mapi_from map]. f_equal. generalize 1%nat. induction cs as [|c' cs IH]; intros i; cbn [mapi_from map]; [reflexivity|]. f_equal. apply IH.
Qed.

Lemma total_perm l l' : Permutation l l' -> (total l == total l')%Q.
Proof. unfold total. induction 1 as [|x l l' _ IH|x y l|l l1 l2 _ IH1 _ IH2]; cbn [fold_right]; [reflexivity|rewrite IH; reflexivity|ring|rewrite IH1; exact IH2]. Qed.
Lemma total_fair st u xs rows : fair u -> Forall2 (fun x c => row_of st x = Ok c) xs rows -> forall i,
  (total (mapi_from (fun i c => expected_of (row_outcomes c (u i))) i rows) == total (map (fair_mean st) xs))%Q.
Proof.
  intros F. unfold total. induction 1 as [|x c xs rows R _ IH]; intros i; cbn [mapi_from map fold_right]; [reflexivity|].
  rewrite IH. unfold fair_mean at 2. rewrite R, (mean_form c (u i) (fair_at u i F)), (mean_form c _ half_fair). reflexivity.
Qed.
Lemma report_total st lib snap au ig fs w target l n u u' r hits a : fair u -> report_with st lib snap au ig fs w target l n u u' = Ok r ->
  hits_with st lib snap au ig fs w target l = Ok hits -> Permutation hits a ->
  (total (rp_expected r) == total (map (fair_mean st) a))%Q /\ forall x, In x a -> exists c, row_of st x = Ok c.
Proof.
  intros F H G P. destruct (report_rows _ _ _ _ _ _ _ _ _ _ _ _ _ _ H G) as (rows & R & ->).
  pose proof (Permutation_trans (sort_by_perm di_time hits) P) as P'. split.
  - rewrite (total_fair st u _ _ F R 0). apply total_perm, Permutation_map, P'.
  - intros x I. apply (Permutation_in _ (Permutation_sym P')) in I. clear - R I. induction R as [|y c ys rows E _ IH]; [destruct I|]. destruct I as [<-|I]; eauto.
Qed.
Lemma total_less l l' : Forall2 no_less l l' -> no_less (total l) (total l').
Proof. unfold no_less, total. induction 1 as [|x y l l' H _ IH]; cbn [fold_right]; [lra|]. lra. Qed.

(** Better gear *)
Theorem gear_means g g' st lib snap au ig fs w target l hits n u u' r :
  sane_library lib -> gear_nonneg g -> better g g' -> same_pace g g' -> stats_of g = Ok st ->
  hits_with st lib snap au ig fs w target l = Ok hits -> fair u -> (forall i j, drawn (u' i j)) -> report_with st lib snap au ig fs w target l n u u' = Ok r ->
  exists st' r', stats_of g' = Ok st' /\ report_with st' lib snap au ig fs w target l n u u' = Ok r'
    /\ (Forall (unit_rates st) hits -> Forall (unit_rates st') hits ->
        Forall2 no_less (rp_expected r) (rp_expected r') /\ no_less (total (rp_expected r)) (total (rp_expected r'))).
Proof.
  intros L N B P S G F D H. destruct (gear_damage g g' st lib snap au ig fs w target l n u u' r L N B P S D H) as (st' & r' & S' & H' & _). exists st', r'. split; [exact S'|]. split; [exact H'|]. intros U U'.
  destruct (same_timing g g' st st' lib snap au ig fs w target l P S S') as [_ E]. pose proof G as G'. rewrite <- E in G'.
  destruct (report_rows _ _ _ _ _ _ _ _ _ _ _ _ _ _ H G) as (rows & R & E1). destruct (report_rows _ _ _ _ _ _ _ _ _ _ _ _ _ _ H' G') as (rows' & R' & E1').
  pose proof (hits_sane lib L _ _ _ _ _ _ _ _ _ G) as Sn.
  assert (K : Forall2 no_less (rp_expected r) (rp_expected r')).
  { rewrite E1, E1'. clear E1 E1' H H' G G'.
    apply (Permutation_Forall (Permutation_sym (sort_by_perm di_time hits))) in U, U', Sn. revert R R' U U' Sn. generalize (sort_by di_time hits). clear hits E.
    intros xs R. revert rows'. generalize 0%nat. induction R as [|x c xs rows Rx _ IH]; intros i rows' R' U U' Sn; inversion R' as [|? c' ? rows1 Rx' R1]; subst; cbn [mapi_from]; [constructor|].
    inversion U; inversion U'; inversion Sn; subst. constructor; [|apply IH; assumption].
    destruct (row_rises g g' st st' x c N B S S' ltac:(assumption) Rx) as (c2 & R2 & W). rewrite Rx' in R2. injection R2 as <-.
    destruct (unit_row st x c ltac:(assumption) Rx). destruct (unit_row st' x c' ltac:(assumption) Rx').
    apply mean_rises; try assumption; try (apply fair_at, F). apply up_better, W. }
  split; [exact K|apply total_less, K].
Qed.

(** Further buffs *)
Lemma buffed_total g st lib snap au ig au' ig' start w target l l' n n' u u1 u' u1' r r' hits hits' :
  sane_library lib -> gear_nonneg g -> stats_of g = Ok st -> fair u -> fair u' ->
  hits_with st lib snap au ig start w target l = Ok hits -> hits_with st lib snap au' ig' start w target l' = Ok hits' -> boosted_hits hits hits' ->
  Forall (unit_rates st) hits -> Forall (unit_rates st) hits' ->
  report_with st lib snap au ig start w target l n u u1 = Ok r -> report_with st lib snap au' ig' start w target l' n' u' u1' = Ok r' ->
  no_less (total (rp_expected r)) (total (rp_expected r')).
Proof.
  intros L N S F F' G G' (a & a' & P & P' & B) U U' H H'.
  destruct (report_total _ _ _ _ _ _ _ _ _ _ _ _ _ _ a F H G P) as (E & R). destruct (report_total _ _ _ _ _ _ _ _ _ _ _ _ _ _ a' F' H' G' P') as (E' & R').
  pose proof (hits_sane lib L _ _ _ _ _ _ _ _ _ G) as Sn. apply (Permutation_Forall P) in Sn, U. apply (Permutation_Forall P') in U'.
  assert (K : no_less (total (map (fair_mean st) a)) (total (map (fair_mean st) a'))).
  { apply total_less. clear E E' P P'. induction B as [|x x' a a' Bx _ IH]; cbn [map]; [constructor|]. inversion U; inversion U'; inversion Sn; subst.
    constructor; [|apply IH; try assumption; [intros y I; apply R; right; exact I|intros y I; apply R'; right; exact I]].
    destruct (R x (or_introl eq_refl)) as (c & Rx). destruct (R' x' (or_introl eq_refl)) as (c' & Rx'). unfold fair_mean. rewrite Rx, Rx'.
    destruct (row_buff g st x x' c N S ltac:(assumption) Bx Rx) as (c2 & R2 & W). rewrite Rx' in R2. injection R2 as <-.
    destruct (unit_row st x c ltac:(assumption) Rx). destruct (unit_row st x' c' ltac:(assumption) Rx').
    apply mean_rises; try assumption; try exact half_fair. apply buffed_better, W. }
  unfold no_less in *. rewrite E, E'. exact K.
Qed.

Theorem support_means extra g st lib snap start w target b0 l b r hits hits' n n' u u1 u' u1' rp rp' :
  sane_library lib -> gear_nonneg g -> stats_of g = Ok st -> fair u -> fair u' ->
  rb_init st lib snap false false start w target = Ok b0 -> follow b0 l = Ok b -> with_support extra b -> distinct_times b ->
  get_skill_timing b = Ok r -> Forall orderly (timeline r) -> distinct_places (timeline r) ->
  hits_with st lib snap false false start w target (unsupported extra b0 l) = Ok hits ->
  hits_with st lib snap false false start w target l = Ok hits' ->
  Forall (unit_rates st) hits -> Forall (unit_rates st) hits' ->
  report_with st lib snap false false start w target (unsupported extra b0 l) n u u1 = Ok rp ->
  report_with st lib snap false false start w target l n' u' u1' = Ok rp' ->
  no_less (total (rp_expected rp)) (total (rp_expected rp')).
Proof.
  intros L N S F F' B0 Fo W D T O P G G' U U' H H'. pose proof (support_hits _ _ _ _ _ _ _ _ _ _ _ _ _ B0 Fo W D T O P G G') as B.
  exact (buffed_total g st lib snap false false false false start w target _ _ n n' u u1 u' u1' rp rp' hits hits' L N S F F' G G' B U U' H H').
Qed.
Theorem shipped_support_means v lv extra g st lib snap start w target b0 l b r hits hits' n n' u u1 u' u1' rp rp' :
  create_skill_library v lv = Ok lib -> gear_nonneg g -> stats_of g = Ok st -> fair u -> fair u' -> (forall n, extra n = true -> In n shipped_buffs) ->
  rb_init st lib snap false false start w target = Ok b0 -> follow b0 l = Ok b -> (forall x, In x (b_sequence b) -> extra (sk_name (sq_skill x)) = false) -> distinct_times b ->
  get_skill_timing b = Ok r -> Forall orderly (timeline r) -> distinct_places (timeline r) ->
  hits_with st lib snap false false start w target (unsupported extra b0 l) = Ok hits ->
  hits_with st lib snap false false start w target l = Ok hits' ->
  Forall (unit_rates st) hits -> Forall (unit_rates st) hits' ->
  report_with st lib snap false false start w target (unsupported extra b0 l) n u u1 = Ok rp ->
  report_with st lib snap false false start w target l n' u' u1' = Ok rp' ->
  no_less (total (rp_expected rp)) (total (rp_expected rp')).
Proof.
  intros C N S Fu Fu' X B0 F Q D H O P. refine (support_means extra g st lib snap start w target b0 l b r hits hits' n n' u u1 u' u1' rp rp' (shipped_sane v lv lib C) N S Fu Fu' B0 F _ D H O P).
  pose proof (built_init _ _ _ _ _ _ _ _ _ B0) as Bt. pose proof (follow_built _ _ _ Bt F) as B. apply (shipped_with_support v lv extra b); [|exact B|exact X|exact Q].
  rewrite (follow_library _ _ _ F). unfold rb_init in B0. apply bind_ok in B0 as (pr & _ & B0). injection B0 as <-. exact C.
Qed.

(** Further attacks *)
Lemma mean_nonneg g st x : stats_of g = Ok st -> gear_nonneg g -> sane_hit x -> unit_rates st x -> (0 <= fair_mean st x)%Q.
Proof.
  intros S N SH U. unfold fair_mean. destruct (row_of st x) as [c|] eqn:R; [|apply Qle_refl].
  destruct (unit_row st x c U R) as [C D]. rewrite (mean_form c _ half_fair).
  assert (W : row_better c c). { destruct (rows_nonneg g st x c S ltac:(apply N) ltac:(apply SH) R) as (A1 & A2 & A3 & A4). constructor; try apply Qle_refl; apply btw_same; assumption. }
  assert (K : forall a b, (0 <= chance c a b * mid c a b)%Q).
  { intros a b. apply Qmult_le_0_compat; [|apply (mid_up c c a b a b W); auto]. pose proof (fsub_unit _ C). pose proof (fsub_unit _ D). unfold chance. destruct a, b; apply fmul_unit; assumption. }
  pose proof (K false false). pose proof (K true false). pose proof (K false true). pose proof (K true true). lra.
Qed.
Lemma total_app a b : (total (a ++ b) == total a + total b)%Q.
Proof. unfold total. induction a as [|x a IH]; cbn [app fold_right]; [ring|]. rewrite IH. ring. Qed.
Lemma total_nonneg l : (forall x, In x l -> 0 <= x)%Q -> (0 <= total l)%Q.
Proof. unfold total. induction l as [|x l IH]; intros H; cbn [fold_right]; [lra|]. pose proof (H x (or_introl eq_refl)). specialize (IH (fun y I => H y (or_intror I))). lra. Qed.
Lemma unnumbered_mean st l : map (fair_mean st) (map unnumbered l) = map (fair_mean st) l.
Proof. rewrite map_map. apply map_ext. intros x. reflexivity. Qed.

Theorem attack_means g st lib snap au ig start w target l au' ig' start' w' target' l' own hits hits' n n' u u1 u' u1' r r' :
  sane_library lib -> gear_nonneg g -> stats_of g = Ok st -> fair u -> fair u' ->
  hits_with st lib snap au ig start w target l = Ok hits -> hits_with st lib snap au' ig' start' w' target' l' = Ok hits' ->
  Permutation (map unnumbered hits') (map unnumbered (own ++ hits)) -> Forall (unit_rates st) hits' ->
  report_with st lib snap au ig start w target l n u u1 = Ok r -> report_with st lib snap au' ig' start' w' target' l' n' u' u1' = Ok r' ->
  (total (rp_expected r') == total (rp_expected r) + total (map (fair_mean st) own) /\ total (rp_expected r) <= total (rp_expected r'))%Q.
Proof.
  intros L N S F F' G G' P U H H'.
  destruct (report_total _ _ _ _ _ _ _ _ _ _ _ _ _ _ hits F H G (Permutation_refl _)) as (E & _).
  destruct (report_total _ _ _ _ _ _ _ _ _ _ _ _ _ _ hits' F' H' G' (Permutation_refl _)) as (E' & _).
  assert (K : (total (map (fair_mean st) hits') == total (map (fair_mean st) own) + total (map (fair_mean st) hits))%Q).
  { rewrite <- total_app, <- map_app, <- (unnumbered_mean st hits'), <- (unnumbered_mean st (own ++ hits)). apply total_perm, Permutation_map, P. }
  pose proof (hits_sane lib L _ _ _ _ _ _ _ _ _ G') as Sn.
  assert (Z : (0 <= total (map (fair_mean st) own))%Q).
  { apply total_nonneg. intros y I. apply in_map_iff in I as (x & <- & I).
    assert (Ix : In (unnumbered x) (map unnumbered hits')) by (apply (Permutation_in _ (Permutation_sym P)), in_map, in_or_app; left; exact I).
    apply in_map_iff in Ix as (x' & Ex & Ix). change (fair_mean st x) with (fair_mean st (unnumbered x)). rewrite <- Ex. change (fair_mean st (unnumbered x')) with (fair_mean st x').
    rewrite Forall_forall in U, Sn. apply (mean_nonneg g); auto. }
  rewrite E, E', K. split; [ring|lra].
Qed.

Theorem shipped_autos_means v lv g st lib snap trailing start w target b0 l b r hits hits' n n' u u1 u' u1' rp rp' :
  create_skill_library v lv = Ok lib -> gear_nonneg g -> stats_of g = Ok st -> fair u -> fair u' -> (1 <= st_weapon_delay st)%Q ->
  rb_init st lib snap false trailing start w target = Ok b0 -> follow b0 l = Ok b ->
  get_skill_timing b = Ok r -> Forall orderly (timeline r) -> distinct_places (timeline r) ->
  hits_with st lib snap false trailing start w target l = Ok hits ->
  hits_with st lib snap true trailing start w target l = Ok hits' -> Forall (unit_rates st) hits' ->
  report_with st lib snap false trailing start w target l n u u1 = Ok rp -> report_with st lib snap true trailing start w target l n' u' u1' = Ok rp' ->
  (total (rp_expected rp) <= total (rp_expected rp'))%Q.
Proof.
  intros C N S F F' D B0 Fo T O P G G' U H H'.
  destruct (shipped_autos_keep_hits v lv g st lib snap trailing start w target b0 l b r hits hits' C S D B0 Fo T O P G G') as (own & Pm & _).
  exact (proj2 (attack_means g st lib snap false trailing start w target l true trailing start w target l own hits hits' n n' u u1 u' u1' rp rp' (shipped_sane v lv lib C) N S F F' G G' Pm U H H')).
Qed.
