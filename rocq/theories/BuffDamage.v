(** * Hits under further buffs (C86) *)

From Coq Require Import ZArith QArith Qround List String Bool Lia Lqa Permutation Sorted.
From Verif Require Import Base BaseFacts Float FloatFacts Strings Types Lookup Stats Library Events Rotation DamageBuild Damage SpecHit HitFacts
  HitOutcomes SimFacts SpecGear GearFacts GearDamage SpecBuff.
Import ListNotations.
Open Scope string_scope.
Open Scope Z_scope.
Local Opaque fl dec.

(** ** Base damage *)

Section Rise.
  Variables (c : consts) (d : damage_spec) (m : modifier) (st : stats) (e e' : effects2).
  Hypothesis C : a_const c.
  Hypothesis U : up st st.
  Hypothesis N : spec_nonneg d.
  Hypothesis E1 : effects_nonneg (fst e).
  Hypothesis E2 : effects_nonneg (snd e).
  Hypothesis B1 : boosted (fst e) (fst e').
  Hypothesis B2 : boosted (snd e) (snd e').

  Lemma crit_adds : btw (fadd (ef_crit_rate_add (fst e)) (ef_crit_rate_add (snd e))) (fadd (ef_crit_rate_add (fst e')) (ef_crit_rate_add (snd e'))).
  Proof. apply btw_fadd; split; [apply E1|apply B1|apply E2|apply B2]. Qed.
  Lemma dh_adds : btw (fadd (ef_dh_rate_add (fst e)) (ef_dh_rate_add (snd e))) (fadd (ef_dh_rate_add (fst e')) (ef_dh_rate_add (snd e'))).
  Proof. apply btw_fadd; split; [apply E1|apply B1|apply E2|apply B2]. Qed.
  Lemma forced_dh_same f : forced_dh f d m e' = forced_dh f d m e.
  Proof. unfold forced_dh. destruct B1 as (_&_&_&_&_&_&_&->), B2 as (_&_&_&_&_&_&_&->). reflexivity. Qed.
  Lemma forced_crit_same f : forced_crit f d m e' = forced_crit f d m e.
  Proof. unfold forced_crit. destruct B1 as (_&_&_&_&_&_&->&_), B2 as (_&_&_&_&_&_&->&_). reflexivity. Qed.
  Lemma dhb_btw : btw (dh_bonus_multiplier d m e) (dh_bonus_multiplier d m e').
  Proof.
    unfold dh_bonus_multiplier. rewrite forced_dh_same. destruct (forced_dh F_YES d m e); [|apply btw_same, Qle_refl].
    apply btw_fmul; [apply btw_same, dec_nonneg; lia|apply dh_adds].
  Qed.
  Lemma cb_btw : btw (crit_bonus_multiplier st d m e) (crit_bonus_multiplier st d m e').
  Proof.
    unfold crit_bonus_multiplier. rewrite forced_crit_same.
    destruct (forced_crit F_YES d m e); [|apply btw_same, Qle_refl]. apply btw_fmul; [apply U|apply crit_adds].
  Qed.
  Lemma det_btw : btw (det_dh_of c st d m e) (det_dh_of c st d m e').
  Proof.
    unfold det_dh_of. rewrite forced_dh_same. destruct (forced_dh F_YES d m e); [|apply U].
    destruct (up_det _ _ U). apply fDetDH_btw; [assumption|assumption|assumption|apply U].
  Qed.
  Lemma single_btw : btw (single_damage_mult d) (single_damage_mult d).
  Proof. apply btw_same, N. Qed.
  Lemma potency_btw : btw (potency d) (potency d).
  Proof. apply btw_same, N. Qed.
  Lemma finish_rises b b' : (b <= 0 \/ btw b b')%Q ->
    (finish_damage st d m e b <= 0 \/ btw (finish_damage st d m e b) (finish_damage st d m e' b'))%Q.
  Proof.
    pose proof dhb_btw as D. pose proof cb_btw as B. pose proof single_btw as G. intros [L|L].
    - left. unfold finish_damage. apply fmul_nonpos_l; [|apply (btw_nonneg _ _ G)]. apply fadd_nonpos; [exact L|].
      apply fadd_nonpos; apply ffloor_nonpos, fmul_nonpos_l; [exact L|apply (btw_nonneg _ _ D)|exact L|apply (btw_nonneg _ _ B)].
    - right. unfold finish_damage. apply btw_fmul; [|exact G]. apply btw_fadd; [exact L|].
      apply btw_fadd; apply btw_ffloor, btw_fmul; assumption.
  Qed.
  Lemma tnc_btw t : tnc_of c st = Ok t -> exists t', tnc_of c st = Ok t' /\ btw t t'.
  Proof.
    unfold tnc_of. pose proof (up_ten _ _ U) as T. destruct (st_tenacity st) as [x|]; cbn; try contradiction; try discriminate.
    intros [= <-]. exists (fTnc c x). split; [reflexivity|]. destruct T. apply fTnc_btw; assumption.
  Qed.
  Lemma q10 : (0 < q 10)%Q. Proof. apply q_pos; lia. Qed.
  Lemma q100 : (0 < q 100)%Q. Proof. apply q_pos; lia. Qed.
  Lemma q1000 : (0 < q 1000)%Q. Proof. apply q_pos; lia. Qed.
  Lemma with_tnc_rises b b' x : (b <= 0 \/ btw b b')%Q -> with_tnc c st b = Ok x ->
    exists x', with_tnc c st b' = Ok x' /\ (x <= 0 \/ btw x x')%Q.
  Proof.
    intros R. unfold with_tnc.  destruct (st_is_tank st); [|intros [= <-]; eauto].
    intros H. apply bind_ok in H as (t & Et & H). injection H as <-. destruct (tnc_btw t Et) as (t' & Et' & T). rewrite Et'. cbn.
    eexists. split; [reflexivity|]. destruct R as [R|R].
    - left. apply fdiv_nonpos, ffloor_nonpos, fdiv_nonpos, fmul_nonpos_l; [apply q100|apply q10|exact R|apply (btw_nonneg _ _ T)].
    - right. apply btw_fdiv, btw_ffloor, btw_fdiv, btw_fmul; [apply q100|apply q10|exact R|exact T].
  Qed.
  Lemma dot_tnc_rises b b' x : (b <= 0 \/ btw b b')%Q -> dot_tnc c st b = Ok x ->
    exists x', dot_tnc c st b' = Ok x' /\ (x <= 0 \/ btw x x')%Q.
  Proof.
    intros R. unfold dot_tnc.  destruct (st_is_tank st); [|intros [= <-]; eauto].
    intros H. apply bind_ok in H as (t & Et & H). injection H as <-. destruct (tnc_btw t Et) as (t' & Et' & T). rewrite Et'. cbn.
    eexists. split; [reflexivity|]. destruct R as [R|R].
    - left. apply ffloor_nonpos, fdiv_nonpos, fmul_nonpos_l; [apply q1000|exact R|apply (btw_nonneg _ _ T)].
    - right. apply btw_ffloor, btw_fdiv, btw_fmul; [apply q1000|exact R|exact T].
  Qed.
  Lemma buffed_mono x : (buffed_main_stat x e <= buffed_main_stat x e')%Q.
  Proof.
    unfold buffed_main_stat. destruct B1 as ((_ & _ & _ & A1) & -> & _), B2 as ((_ & _ & _ & A2) & -> & _).
    apply fadd_mono; [apply Qle_refl|]. apply fadd_mono; assumption.
  Qed.
  Lemma party_bonus_btw : btw (party_bonus st) (party_bonus st).
  Proof.
    unfold party_bonus. apply btw_fadd; [apply btw_same; lra|]. apply btw_fmul; [apply btw_same, dec_nonneg; lia|apply U].
  Qed.
  (** Attack power: not positive, or risen. *)
  Lemma ap_cases x y t : (x <= y)%Q -> (fAP c x t <= 0 \/ btw (fAP c x t) (fAP c y t))%Q.
  Proof.
    intros L. destruct (Qlt_le_dec (fAP c x t) 0) as [P|P]; [left; lra|]. right. split; [exact P|]. apply fAP_mono; assumption.
  Qed.
  Lemma party_cases t : (fAP c (party_main_stat st e) t <= 0 \/ btw (fAP c (party_main_stat st e) t) (fAP c (party_main_stat st e') t))%Q.
  Proof.
    unfold party_main_stat. pose proof (buffed_mono (st_main_stat st)) as M. pose proof party_bonus_btw as P.
    destruct (Qlt_le_dec (buffed_main_stat (st_main_stat st) e) 0) as [B|B].
    - left. apply Qle_trans with (fAP c 0 t); [|apply fAP_bottom; assumption]. apply fAP_mono; [assumption|].
      apply ffloor_nonpos, fmul_nonpos_l; [lra|apply (btw_nonneg _ _ P)].
    - apply ap_cases. apply (btw_le (ffloor _) (ffloor _)), btw_ffloor, btw_fmul; [split; assumption|exact P].
  Qed.
  Lemma ap_det_rises p p' ap ap' dt dt' : btw p p' -> btw dt dt' -> (ap <= 0 \/ btw ap ap')%Q ->
    (ap_det p ap dt <= 0 \/ btw (ap_det p ap dt) (ap_det p' ap' dt'))%Q.
  Proof.
    intros P D [A|A].
    - left. unfold ap_det. apply fdiv_nonpos, ffloor_nonpos, fdiv_nonpos; [apply q100|apply q10|].
      apply fmul_nonpos_l; [|apply (btw_nonneg _ _ D)]. apply fdiv_nonpos, ffloor_nonpos, fdiv_nonpos; [apply q100|apply q100|].
      apply fmul_nonpos_r; [apply (btw_nonneg _ _ P)|exact A].
    - right. unfold ap_det. apply btw_fdiv, btw_ffloor, btw_fdiv; [apply q100|apply q10|].
      apply btw_fmul; [|exact D]. apply btw_fdiv, btw_ffloor, btw_fdiv; [apply q100|apply q100|]. apply btw_fmul; assumption.
  Qed.
  Lemma mul_rises b b' w w' : (b <= 0 \/ btw b b')%Q -> btw w w' -> (fmul b w <= 0 \/ btw (fmul b w) (fmul b' w'))%Q.
  Proof. intros [B|B] W; [left; apply fmul_nonpos_l; [exact B|apply (btw_nonneg _ _ W)]|right; apply btw_fmul; assumption]. Qed.
  Lemma floor_rises b b' : (b <= 0 \/ btw b b')%Q -> (ffloor b <= 0 \/ btw (ffloor b) (ffloor b'))%Q.
  Proof. intros [B|B]; [left; apply ffloor_nonpos, B|right; apply btw_ffloor, B]. Qed.
  Lemma div_rises b b' k : (0 < k)%Q -> (b <= 0 \/ btw b b')%Q -> (fdiv b k <= 0 \/ btw (fdiv b k) (fdiv b' k))%Q.
  Proof. intros K [B|B]; [left; apply fdiv_nonpos; assumption|right; apply btw_fdiv; assumption]. Qed.
  Lemma mul_rises_r b b' w w' : btw w w' -> (b <= 0 \/ btw b b')%Q -> (fmul w b <= 0 \/ btw (fmul w b) (fmul w' b'))%Q.
  Proof. intros W [B|B]; [left; apply fmul_nonpos_r; [apply (btw_nonneg _ _ W)|exact B]|right; apply btw_fmul; assumption]. Qed.

  Lemma wd_btw : btw (fWD c (st_wd st) (ps_job_mod st)) (fWD c (st_wd st) (ps_job_mod st)).
  Proof. destruct (up_mod _ _ U) as [P _]. destruct (up_wd _ _ U). apply fWD_btw; assumption. Qed.
  Lemma spd_btw : btw (fSpd c (st_speed st)) (fSpd c (st_speed st)).
  Proof. destruct (up_speed _ _ U) as [P L]. split; [apply fSpd_nonneg; assumption|apply fSpd_mono; assumption]. Qed.

  Lemma direct_rises : rises (direct_damage c d m st e) (direct_damage c d m st e').
  Proof.
    intros x. unfold direct_damage.  intros H. apply bind_ok in H as (b & Eb & H). injection H as <-.
    pose proof (party_cases (st_is_tank st)) as A.
    assert (R : exists b', (if uses_strength st
        then Ok (ffloor (fmul (fdiv (ffloor (fdiv (fmul (fAP c (party_main_stat st e') (st_is_tank st)) (det_dh_of c st d m e')) (q 1000))) (q 100))
               (ffloor (fdiv (fmul (fWD c (st_wd st) (ps_job_mod st)) (potency d)) (q 100)))))
        else let* b1 := with_tnc c st (ap_det (potency d) (fAP c (party_main_stat st e') (st_is_tank st)) (det_dh_of c st d m e')) in
             Ok (ffloor (ffloor (fmul b1 (fWD c (st_wd st) (ps_job_mod st)))))) = Ok b' /\ (b <= 0 \/ btw b b')%Q).
    { destruct (uses_strength st).
      - injection Eb as <-. eexists. split; [reflexivity|]. apply floor_rises, mul_rises.
        + apply div_rises, floor_rises, div_rises, mul_rises; [apply q100|apply q1000|exact A|apply det_btw].
        + apply btw_ffloor, btw_fdiv, btw_fmul; [apply q100|apply wd_btw|apply potency_btw].
      - apply bind_ok in Eb as (b1 & E3 & Eb). injection Eb as <-.
        destruct (with_tnc_rises _ _ _ (ap_det_rises _ _ _ _ _ _ potency_btw det_btw A) E3) as (y & Ey & Ry). rewrite Ey. cbn.
        eexists. split; [reflexivity|]. apply floor_rises, floor_rises, mul_rises; [exact Ry|apply wd_btw]. }
    destruct R as (b' & Eb' & R). rewrite Eb'. cbn. eexists. split; [reflexivity|]. apply finish_rises, R.
  Qed.
  Lemma magical_rises : rises (magical_dot_damage c d m st e) (magical_dot_damage c d m st e').
  Proof.
    intros x. unfold magical_dot_damage.  intros H. apply bind_ok in H as (b & Eb & H). injection H as <-.
    pose proof (party_cases (st_is_tank st)) as A.
    edestruct dot_tnc_rises as (y & Ey & Ry); [|exact Eb|].
    2:{ rewrite Ey. cbn. eexists. split; [reflexivity|]. apply finish_rises, floor_rises, div_rises, floor_rises, div_rises; [apply q100|apply q1000|exact Ry]. }
    apply floor_rises, div_rises, floor_rises, mul_rises; [apply q1000| |apply det_btw].
    apply floor_rises, floor_rises, mul_rises; [|apply spd_btw]. apply floor_rises, mul_rises_r; [|exact A].
    apply btw_ffloor, btw_fdiv, btw_ffloor, btw_fmul; [apply q100|apply potency_btw|apply wd_btw].
  Qed.
  Lemma physical_rises : rises (physical_dot_damage c d m st e) (physical_dot_damage c d m st e').
  Proof.
    intros x. unfold physical_dot_damage.  intros H. apply bind_ok in H as (b & Eb & H). injection H as <-.
    pose proof (party_cases (st_is_tank st)) as A.
    edestruct dot_tnc_rises as (y & Ey & Ry); [|exact Eb|].
    2:{ rewrite Ey. cbn. eexists. split; [reflexivity|]. apply finish_rises, floor_rises, div_rises, floor_rises, mul_rises; [apply q100| |apply wd_btw].
        apply floor_rises, div_rises, floor_rises, mul_rises; [apply q1000|exact Ry|apply spd_btw]. }
    apply div_rises, floor_rises, div_rises, mul_rises; [apply q1000|apply q100| |apply det_btw].
    apply mul_rises_r; [apply potency_btw|exact A].
  Qed.
  Lemma pet_rises : rises (pet_damage c d m st e) (pet_damage c d m st e').
  Proof.
    intros x. unfold pet_damage. destruct (up_mod _ _ U) as [PM _].
    set (jm := match pet_job_mod_override d with Some j => j | None => ps_job_mod st end).
    assert (J : (0 <= jm)%Q) by (unfold jm; destruct N as (_&N1&_); destruct (pet_job_mod_override d); assumption).
    intros H. apply bind_ok in H as (b & Eb & H). injection H as <-.
    edestruct with_tnc_rises as (y & Ey & Ry); [|exact Eb|].
    2:{ rewrite Ey. cbn. eexists. split; [reflexivity|]. apply finish_rises, floor_rises, floor_rises, mul_rises; [exact Ry|].
        destruct (up_wd _ _ U). apply fWD_btw; assumption. }
    apply ap_det_rises; [apply potency_btw|apply det_btw|]. apply ap_cases. apply fmul_mono_l; [|apply N].
    apply buffed_mono.
  Qed.
  Lemma auto_rises : rises (auto_damage c d m st e) (auto_damage c d m st e').
  Proof.
    intros x. unfold auto_damage. 
    pose proof party_bonus_btw as PB. intros H. apply bind_ok in H as (mn & Em & H). apply bind_ok in H as (b & Eb & H). injection H as <-.
    assert (M : exists mn', (if uses_strength st then let* s := of_option RuntimeError (st_healer_strength st) in Ok (fmul s (party_bonus st))
                             else Ok (party_main_stat st e')) = Ok mn'
                            /\ (fAP c mn (st_is_tank st) <= 0 \/ btw (fAP c mn (st_is_tank st)) (fAP c mn' (st_is_tank st)))%Q).
    { destruct (uses_strength st).
      - pose proof (up_healer _ _ U) as Hh. destruct (st_healer_strength st) as [s|]; cbn in *; try contradiction; try discriminate.
        injection Em as <-. eexists. split; [reflexivity|]. apply ap_cases. apply btw_le, btw_fmul; assumption.
      - injection Em as <-. eexists. split; [reflexivity|apply party_cases]. }
    destruct M as (mn' & Em' & M). rewrite Em'. cbn.
    edestruct with_tnc_rises as (y & Ey & Ry);
      [apply (ap_det_rises _ _ _ _ _ _ potency_btw det_btw M)|exact Eb|].
    rewrite Ey. cbn. eexists. split; [reflexivity|]. apply finish_rises, floor_rises, div_rises, floor_rises, mul_rises; [apply q100| |].
    - apply div_rises, floor_rises, mul_rises; [apply q10|exact Ry|]. destruct (uses_sks _ _); [apply spd_btw|].
      apply btw_same, q_nonneg; lia.
    - destruct (up_mod _ _ U) as [PM _]. destruct (up_wd _ _ U). apply fAuto_btw; try assumption. apply U.
  Qed.
  Lemma class_rises : rises (class_damage c d m st e) (class_damage c d m st e').
  Proof.
    unfold class_damage. destruct (damage_class d);
      first [apply direct_rises|apply physical_rises|apply magical_rises|apply pet_rises|apply auto_rises|intros ? [=]].
  Qed.
End Rise.

Lemma better_refl g : better g g.
Proof.
  unfold better, opt_le. destruct (g_delay g), (g_ten g), (g_healer g); repeat split; try apply Qle_refl.
Qed.
Lemma base_buffed g st x x' b d : gear_nonneg g -> stats_of g = Ok st -> sane_hit x -> boosted_hit x x' ->
  get_damage_spec (di_skill x) (di_modifier x) = Ok (Some d) ->
  get_base_damage (di_skill x) (di_modifier x) st (di_effects x) = Ok (Some b) ->
  exists b', get_base_damage (di_skill x) (di_modifier x) st (di_effects x') = Ok (Some b') /\ (b <= b')%Q.
Proof.
  intros NG Hs (M & E1 & E2 & D) (_ & _ & _ & _ & B1 & B2) Hd H. specialize (D d Hd).
  destruct (better_up g g st NG (better_refl g) Hs) as (st' & Hs' & U). rewrite Hs in Hs'. injection Hs' as <-.
  unfold get_base_damage in *. rewrite Hd in *. cbn [bind] in *. destruct (Qeq_bool (potency d) 0) eqn:P.
  - injection H as <-. eexists. split; [reflexivity|apply Qle_refl].
  - apply bind_ok in H as (c & Ec & H). apply bind_ok in H as (y & Ey & H). injection H as <-. rewrite Ec. cbn [bind].
    destruct (class_rises c d (di_modifier x) st _ (di_effects x') (get_consts_const _ _ _ Ec) U D E1 E2 B1 B2 y Ey) as (y' & Ey' & R). rewrite Ey'. cbn [bind].
    eexists. split; [reflexivity|]. apply qmax_lub; [|apply qmax_le_r]. destruct R as [R|R].
    + apply Qle_trans with 1%Q; [lra|apply qmax_le_r].
    + apply Qle_trans with y'; [apply R|apply qmax_le_l].
Qed.

(** ** Rows *)
Record row_buffed (r r' : row) : Prop := mkRowBuffed {
  rb_base : btw (r_base r) (r_base r');
  rb_bonus : (0 <= r_crit_bonus r)%Q /\ r_crit_bonus r' = r_crit_bonus r;
  rb_crit : (r_crit_rate r <= r_crit_rate r')%Q;
  rb_dh : (r_dh_rate r <= r_dh_rate r')%Q;
  rb_trait : (0 <= r_trait r)%Q /\ r_trait r' = r_trait r;
  rb_mult : btw (r_mult r) (r_mult r');
  rb_time : r_time r' = r_time r
}.
Lemma rate_buffed a x y x' y' l p p' : (x <= x')%Q -> (y <= y')%Q -> rate_is a x y l p -> rate_is a x' y' l p' -> (p <= p')%Q.
Proof.
  intros L L' [? ?|? ?|? ?] [? ?|? ?|? ?]; try contradiction; try apply Qle_refl.
  apply fadd_mono; [|exact L']. apply fadd_mono; [apply Qle_refl|exact L].
Qed.
Lemma row_buff g st x x' r : gear_nonneg g -> stats_of g = Ok st -> sane_hit x -> boosted_hit x x' ->
  row_of st x = Ok r -> exists r', row_of st x' = Ok r' /\ row_buffed r r'.
Proof.
  intros N S SH BH H.
  assert (NR : row_nonneg r) by (apply (rows_nonneg g st x r S); [apply N|apply SH|exact H]).
  unfold row_of in *. apply bind_ok in H as (b & Eb & H). apply bind_ok in H as (b1 & Eb1 & H). destruct b as [b|]; [|discriminate]. injection Eb1 as <-.
  apply bind_ok in H as (sp & Es & H). apply bind_ok in H as (d & Ed & H). destruct sp as [d'|]; [|discriminate]. injection Ed as ->.
  apply bind_ok in H as ([[dh crit] bonus] & Er & H). injection H as <-.
  destruct (base_buffed g st x x' b d N S SH BH Es Eb) as (b' & Eb' & L). destruct BH as (Et & Ek & Em & _ & B1 & B2).
  rewrite Ek, Em, Et, Eb'. cbn [bind of_option]. rewrite Es. cbn [bind of_option].
  pose proof Er as Er0. apply rates_ok in Er as (R1 & R2 & ->).
  assert (Sd : dh_sources d (di_modifier x) (di_effects x') = dh_sources d (di_modifier x) (di_effects x))
    by (unfold dh_sources; destruct B1 as (_&_&_&_&_&_&_&->), B2 as (_&_&_&_&_&_&_&->); reflexivity).
  assert (Sc : crit_sources d (di_modifier x) (di_effects x') = crit_sources d (di_modifier x) (di_effects x))
    by (unfold crit_sources; destruct B1 as (_&_&_&_&_&_&->&_), B2 as (_&_&_&_&_&_&->&_); reflexivity).
  destruct (crit_rates_and_bonuses st d (di_modifier x) (di_effects x')) as [[[dh' crit'] bonus']|e] eqn:Er'.
  2:{ apply rates_err in Er' as (-> & Er'). rewrite Sd, Sc in Er'.
      assert (X : crit_rates_and_bonuses st d (di_modifier x) (di_effects x) = Err RuntimeError) by (apply rates_err; auto). rewrite X in Er0. discriminate. }
  cbn [bind]. eexists. split; [reflexivity|]. apply rates_ok in Er' as (R1' & R2' & ->). rewrite Sd in R1'. rewrite Sc in R2'.
  destruct NR as (NR1 & NR2 & NR3 & NR4). cbn in *.
  destruct B1 as ((A1 & A2 & A3 & _) & _), B2 as ((A1' & A2' & A3' & _) & _). destruct SH as ((M1 & M2 & _) & _).
  constructor; cbn.
  - split; assumption.
  - split; [exact NR2|reflexivity].
  - exact (rate_buffed _ _ _ _ _ _ _ _ A1 A1' R2 R2').
  - exact (rate_buffed _ _ _ _ _ _ _ _ A2 A2' R1 R1').
  - split; [exact NR3|reflexivity].
  - unfold compute_damage_mult. apply btw_fmul; split; assumption.
  - reflexivity.
Qed.
Lemma damage_buffed base base' cb cr cr' dr dr' mult mult' trait range u :
  btw base base' -> (0 <= cb)%Q -> (cr <= cr')%Q -> (dr <= dr')%Q -> btw mult mult' -> (0 <= trait)%Q ->
  (0 <= fadd (fsub 1 (fdiv range (q 2))) (fmul range (fst (fst u))))%Q ->
  btw (fst (fst (get_damage base cb cr dr mult trait range u))) (fst (fst (get_damage base' cb cr' dr' mult' trait range u))).
Proof.
  intros B C R D M T V.
  pose proof (damage_rises base base' cb cb cr cr' dr dr' mult trait range u B (btw_same _ C) R D (btw_nonneg _ _ M) T V) as X.
  assert (Y : btw (fst (fst (get_damage base' cb cr' dr' mult trait range u))) (fst (fst (get_damage base' cb cr' dr' mult' trait range u)))).
  { assert (Z0 : btw base' base') by (apply btw_same; apply Qle_trans with base; apply B).
    pose proof (damage_rises base' base' cb cb cr' cr' dr' dr' mult trait range u Z0 (btw_same _ C) (Qle_refl _) (Qle_refl _) (btw_nonneg _ _ M) T V) as (P0 & _).
    destruct u as [[u0 u1] u2]. cbn [fst] in V. unfold get_damage in *. cbn [fst] in *. split; [exact P0|]. apply ffloor_mono.
    set (t3 := ffloor _). assert (P3 : (0 <= t3)%Q).
    { subst t3. assert (H0 : btw (ffloor (fmul base' (fadd (fsub 1 (fdiv range (q 2))) (fmul range u0)))) (ffloor (fmul base' (fadd (fsub 1 (fdiv range (q 2))) (fmul range u0)))))
        by (apply btw_ffloor, btw_fmul; [exact Z0|apply btw_same, V]).
      assert (H1 : btw (fmul cb (qbool (Qle_bool u1 cr'))) (fmul cb (qbool (Qle_bool u1 cr')))) by (apply btw_fmul; [apply btw_same, C|apply qbool_le; auto]).
      assert (H2 : btw (fmul DH_DAMAGE_MULT_BONUS (qbool (Qle_bool u2 dr'))) (fmul DH_DAMAGE_MULT_BONUS (qbool (Qle_bool u2 dr')))) by (apply btw_fmul; [apply btw_same, DH_nonneg|apply qbool_le; auto]).
      assert (H3 := btw_fadd _ _ _ _ H0 (btw_ffloor _ _ (btw_fmul _ _ _ _ H0 H1))).
      apply (btw_nonneg _ _ (btw_ffloor _ _ (btw_fmul _ _ _ _ (btw_fadd _ _ _ _ H3 (btw_ffloor _ _ (btw_fmul _ _ _ _ H3 H2))) (btw_same _ T)))). }
    apply (btw_le _ _ (btw_fmul _ _ _ _ (btw_same _ P3) M)). }
  destruct X as [X1 X2], Y as [_ Y2]. split; [exact X1|]. apply Qle_trans with (1 := X2). exact Y2.
Qed.

Lemma sample_buffed r r' u : row_buffed r r' -> drawn u -> (fst (fst (sample_cell r u)) <= fst (fst (sample_cell r' u)))%Q.
Proof.
  intros U V. destruct (rb_trait _ _ U) as [T ET]. destruct (rb_bonus _ _ U) as [M EM]. unfold sample_cell. rewrite ET, EM.
  apply btw_le, damage_buffed; try apply U; try assumption. destruct u as [[u0 u1] u2]. destruct V as (V & _). cbn [fst].
  apply fadd_nonneg; [|apply fmul_nonneg; [apply dec_nonneg; lia|lra]].
  vm_compute. discriminate.
Qed.
