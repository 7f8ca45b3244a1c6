(** * Better gear never lowers the damage of a rotation *)

From Coq Require Import ZArith QArith List String Bool.
From Verif Require Import Base BaseFacts Float Types Lookup StatusEffect Stats Library Events Rotation DamageBuild Damage KillTime SpecReplay Relabel
  SpecHit SpecKill SpecGame SpecShuffle SpecMove SpecNeed NeedFacts SpecGear GearFacts GearDamage SaneFacts GameLib GameProps.
Import ListNotations.
Open Scope string_scope.
Open Scope Z_scope.

(** ** Rotations of a sane library *)

Section Sane.
  Variable lib : library.
  Variable sane : sane_library lib.
  Definition kept (b : builder) : Prop := b_library b = lib /\ sane_calls b.
  Lemma carry_kept i b b' : kept b -> carry_out b i = Ok b' -> kept b'.
  Proof.
    intros (L & Sq & Tm & Dt & Au) H. destruct i as [c n|t c]; cbn in H; unfold add_next, add in H; destruct (process_targets b (c_targets c)) as [tg all];
      inv_bind H; injection H as <-; (split; [exact L|]); rewrite L in E; apply sane in E.
    - split; [|split; [exact Tm|split; [exact Dt|exact Au]]]. cbn. apply Forall_app. split; [exact Sq|]. apply Forall_forall. intros x I. apply repeat_spec in I as ->. exact E.
    - split; [exact Sq|]. split; [|split; [exact Dt|exact Au]]. cbn. apply Forall_app. split; [exact Tm|]. constructor; [exact E|constructor].
  Qed.
  Lemma follow_kept l : forall b b', kept b -> follow b l = Ok b' -> kept b'.
  Proof.
    induction l as [|i l IH]; intros b b' K F; [injection F as <-; exact K|].
    unfold follow in F. cbn [foldM] in F. apply bind_ok in F as (b1 & E & F). exact (IH _ _ (carry_kept _ _ _ K E) F).
  Qed.
  Lemma made_kept st snap au ig fs w target l b : rotation_with st lib snap au ig fs w target l = Ok b -> kept b.
  Proof.
    intros H. unfold rotation_with in H. inv_bind H. refine (follow_kept _ _ _ _ H). unfold rb_init in E. inv_bind E. injection E as <-.
    split; [reflexivity|]. split; [constructor|]. split; [constructor|]. split; [intros ? ? ? ? []|]. intros _ s A. unfold auto_skill_of in A. apply bind_ok in A as (h & _ & A). destruct h; exact (sane _ _ _ A).
  Qed.
  Lemma made_sane st snap au ig fs w target l b : rotation_with st lib snap au ig fs w target l = Ok b -> sane_rotation b.
  Proof. intros H. apply sane_sound. exact (proj2 (made_kept _ _ _ _ _ _ _ _ _ H)). Qed.
  Lemma made_nonneg st snap au ig fs w target l b : rotation_with st lib snap au ig fs w target l = Ok b -> hits_nonneg b.
  Proof.
    intros H tk b' tk' qu hits D R G. pose proof (made_sane _ _ _ _ _ _ _ _ _ H tk b' tk' qu hits D R G) as F. eapply Forall_impl; [|exact F]. intros x X. exact (proj1 X).
  Qed.
  Lemma hits_sane st snap au ig fs w target l hits : hits_with st lib snap au ig fs w target l = Ok hits -> Forall sane_hit hits.
  Proof.
    intros H. unfold hits_with in H. inv_bind H. inv_bind H. inv_bind H. inv_bind H. inv_bind H. destruct a3 as [[tk' qu] out]. injection H as <-.
    assert (M : rotation_with st lib snap au ig fs w target l = Ok a0) by (unfold rotation_with; rewrite E; exact E0).
    refine (made_sane _ _ _ _ _ _ _ _ _ M a2 a1 tk' qu out _ E1 E3).
    destruct (follow_keeps l _ _ E0) as (K1 & K2 & _). rewrite K1, K2. unfold rb_init in E. inv_bind E. injection E as <-. exact E2.
  Qed.
End Sane.

Lemma report_hits st lib snap au ig fs w target l n u u' r : report_with st lib snap au ig fs w target l n u u' = Ok r ->
  exists hits, hits_with st lib snap au ig fs w target l = Ok hits.
Proof.
  unfold report_with, hits_with, report_of. intros H. inv_bind H. inv_bind H. inv_bind H. inv_bind H. inv_bind H. destruct a3 as [[tk' qu] out].
  rewrite E. cbn [bind]. rewrite E0. cbn [bind]. rewrite E1. cbn [bind].
  destruct (follow_keeps l _ _ E0) as (K1 & K2 & _). rewrite K1, K2 in E2. unfold rb_init in E. inv_bind E. injection E as <-. cbn [b_stats b_library] in E2.
  rewrite E2. cbn [bind]. rewrite E3. cbn [bind]. eauto.
Qed.

Lemma gear_damage g g' st lib snap au ig fs w target l n u u' r : sane_library lib -> gear_nonneg g -> better g g' -> same_pace g g' -> stats_of g = Ok st ->
  (forall i j, drawn (u' i j)) -> report_with st lib snap au ig fs w target l n u u' = Ok r ->
  exists st' r', stats_of g' = Ok st' /\ report_with st' lib snap au ig fs w target l n u u' = Ok r'
    /\ Forall2 Qle (rp_damage r) (rp_damage r') /\ Forall2 dps_le (rp_dps r) (rp_dps r')
    /\ rp_ids r' = rp_ids r /\ rp_targets r' = rp_targets r.
Proof.
  intros L N B P S D H. destruct (report_hits _ _ _ _ _ _ _ _ _ _ _ _ _ H) as (hits & Hh).
  destruct (report_up g g' st lib snap au ig fs w target l hits n u u' r N B P S Hh (hits_sane lib L _ _ _ _ _ _ _ _ _ Hh) D H) as (st' & r' & A1 & A2 & A3 & A4 & A5 & A6 & _).
  exists st', r'. auto 8.
Qed.
Lemma gear_expected g g' st lib snap au ig fs w target l hits n u u' r : sane_library lib -> gear_nonneg g -> better g g' -> same_pace g g' -> stats_of g = Ok st ->
  g_crit g' = g_crit g -> g_dh g' = g_dh g ->
  hits_with st lib snap au ig fs w target l = Ok hits -> Forall (unit_rates st) hits ->
  (forall i j, drawn (u' i j)) -> report_with st lib snap au ig fs w target l n u u' = Ok r ->
  exists st' r', stats_of g' = Ok st' /\ report_with st' lib snap au ig fs w target l n u u' = Ok r' /\ Forall2 Qle (rp_expected r) (rp_expected r').
Proof.
  intros L N B P S EC ED Hh U D H.
  destruct (report_up g g' st lib snap au ig fs w target l hits n u u' r N B P S Hh (hits_sane lib L _ _ _ _ _ _ _ _ _ Hh) D H) as (st' & r' & A1 & A2 & _ & _ & _ & _ & A7).
  exists st', r'. auto 8.
Qed.
Lemma made_restat g g' st st' lib snap au ig fs w target l b : same_pace g g' -> stats_of g = Ok st -> stats_of g' = Ok st' ->
  rotation_with st lib snap au ig fs w target l = Ok b -> rotation_with st' lib snap au ig fs w target l = Ok (restat st' b) /\ b_stats b = st.
Proof.
  intros P S S' H. pose proof (paced g g' st st' P S S') as EP. unfold rotation_with in *. rewrite EP at 1. rewrite init_regear.
  destruct (rb_init st lib snap au ig fs w target) as [b0|] eqn:EI; [|discriminate]. cbn [bind rmap] in *. rewrite follow_regear. rewrite H. split; [reflexivity|].
  destruct (follow_keeps l _ _ H) as (K1 & _). rewrite K1. unfold rb_init in EI. inv_bind EI. injection EI as <-. reflexivity.
Qed.
Lemma gear_kills hp rots rots' n argsort ks : sorts argsort -> Forall2 regeared rots rots' -> Forall (fun bu => draws_ok (snd bu)) rots ->
  estimate_kill_time hp rots n argsort = Ok ks ->
  exists ks' deaths deaths', estimate_kill_time hp rots' n argsort = Ok ks' /\ ks = reported deaths /\ ks' = reported deaths' /\ Forall2 not_earlier deaths' deaths.
Proof.
  intros A F D. apply kills_up; [exact A| |].
  - clear D. induction F as [|x y l l' (U & g & g' & st & st' & lib & snap & au & ig & fs & w & target & calls & N & B & P & L & S & S' & R & R') _ IH]; constructor; [|exact IH].
    destruct (made_restat g g' st st' lib snap au ig fs w target calls _ P S S' R) as (R'' & E). rewrite R' in R''. injection R'' as Y.
    split; [exact U|]. exists g, g', st'. rewrite E. repeat (split; [assumption|]). rewrite Y. pose proof (paced g g' st st' P S S') as EP. rewrite <- E in EP.
    unfold restat, with_stats. rewrite <- EP. reflexivity.
  - induction F as [|x y l l' (U & g & g' & st & st' & lib & snap & au & ig & fs & w & target & calls & N & B & P & L & S & S' & R & R') _ IH]; [constructor|].
    inversion D as [|? ? D1 D2]; subst. constructor; [|exact (IH D2)]. split; [|exact D1]. exact (made_sane lib L _ _ _ _ _ _ _ _ _ R).
Qed.

Lemma shipped_sane v lv lib : create_skill_library v lv = Ok lib -> sane_library lib.
Proof. intros C n j s G p P. destruct (shipped_numbers v lv lib n j s p C G P) as (_ & A & B & _). split; assumption. Qed.
