(** * Facts about base damage, rates and outcomes (C34-C39) *)

From Coq Require Import ZArith QArith Qround Qabs List String Bool Lia Lqa.
From Verif Require Import Base BaseFacts Float FloatFacts Strings Types Lookup StatusEffect Stats Events DamageBuild Damage SpecHit.
Import ListNotations.
Open Scope string_scope.
Open Scope Z_scope.

(** ** Base damage *)

Lemma qmax_le_l a b : (a <= qmax a b)%Q.
Proof. unfold qmax. destruct (Qle_bool a b) eqn:E; [apply Qle_bool_iff, E|apply Qle_refl]. Qed.
Lemma qmax_le_r a b : (b <= qmax a b)%Q.
Proof.
  unfold qmax. destruct (Qle_bool a b) eqn:E; [apply Qle_refl|].
  destruct (Qlt_le_dec b a) as [L|L]; [lra|]. apply Qle_bool_iff in L. congruence.
Qed.
Lemma qmax_lub a b c : (a <= c -> b <= c -> qmax a b <= c)%Q.
Proof. unfold qmax. destruct (Qle_bool a b); auto. Qed.

Lemma base_damage_cases s m st e r : get_base_damage s m st e = Ok r ->
  match r with
  | None => get_damage_spec s m = Ok None
  | Some b => exists d, get_damage_spec s m = Ok (Some d)
      /\ ((potency d == 0 /\ b == 0) \/ (~ potency d == 0 /\ 1 <= b))%Q
  end.
Proof.
  unfold get_base_damage. intros H. apply bind_ok in H as (sp & E & H). rewrite E. destruct sp as [d|].
  - destruct (Qeq_bool (potency d) 0) eqn:P.
    + injection H as <-. apply Qeq_bool_iff in P. exists d. split; [reflexivity|]. left. split; [exact P|reflexivity].
    + apply bind_ok in H as (c & _ & H). apply bind_ok in H as (b & _ & H). injection H as <-.
      exists d. split; [reflexivity|]. right. split; [apply Qeq_bool_neq, P|apply qmax_le_r].
  - injection H as <-. reflexivity.
Qed.

(** ** Monotonicity *)

(** [a] is not negative and not above [b]. *)
Definition btw (a b : Q) : Prop := (0 <= a /\ a <= b)%Q.
Lemma btw_same a : (0 <= a)%Q -> btw a a.
Proof. split; [assumption|apply Qle_refl]. Qed.
Lemma btw_fmul a b c d : btw a b -> btw c d -> btw (fmul a c) (fmul b d).
Proof. intros [? ?] [? ?]. split; [apply fmul_nonneg|apply fmul_mono]; assumption. Qed.
Lemma btw_fadd a b c d : btw a b -> btw c d -> btw (fadd a c) (fadd b d).
Proof. intros [? ?] [? ?]. split; [apply fadd_nonneg|apply fadd_mono]; assumption. Qed.
Lemma btw_fdiv a b c : (0 < c)%Q -> btw a b -> btw (fdiv a c) (fdiv b c).
Proof. intros P [? ?]. split; [apply fdiv_nonneg|apply fdiv_mono]; assumption. Qed.
Lemma btw_ffloor a b : btw a b -> btw (ffloor a) (ffloor b).
Proof. intros [? ?]. split; [apply ffloor_nonneg|apply ffloor_mono]; assumption. Qed.
Lemma btw_le a b : btw a b -> (a <= b)%Q.
Proof. intros [_ ?]. assumption. Qed.
Lemma btw_nonneg a b : btw a b -> (0 <= a)%Q.
Proof. intros [? _]. assumption. Qed.
Lemma btw_nonneg' a b : btw a b -> (0 <= b)%Q.
Proof. intros [? ?]. lra. Qed.

Lemma fmul_nonpos_l a b : (a <= 0 -> 0 <= b -> fmul a b <= 0)%Q.
Proof. intros. apply fl_nonpos. nra. Qed.
Lemma fmul_nonpos_r a b : (0 <= a -> b <= 0 -> fmul a b <= 0)%Q.
Proof. intros. apply fl_nonpos. nra. Qed.
Lemma fadd_nonpos a b : (a <= 0 -> b <= 0 -> fadd a b <= 0)%Q.
Proof. intros. apply fl_nonpos. lra. Qed.
Lemma ffloor_nonpos a : (a <= 0 -> ffloor a <= 0)%Q.
Proof. intros H. apply ffloor_mono in H. exact H. Qed.
Lemma fdiv_nonpos a c : (0 < c -> a <= 0 -> fdiv a c <= 0)%Q.
Proof. intros P H. apply fl_nonpos. apply (Qdiv_mono a 0 c) in H; [|exact P]. unfold Qdiv in *. lra. Qed.

Local Opaque fl dec.

Lemma q_pos z : 0 < z -> (0 < q z)%Q.
Proof. intros. unfold q. change 0%Q with (inject_Z 0). apply inject_Z_lt. assumption. Qed.
Lemma q_nonneg z : 0 <= z -> (0 <= q z)%Q.
Proof. intros. unfold q. change 0%Q with (inject_Z 0). apply inject_Z_le. assumption. Qed.

(** The two columns of constants. *)
Definition a_const (c : consts) : Prop := c = consts_90 \/ c = consts_100.
Lemma get_consts_const v l c : get_consts v l = Ok c -> a_const c.
Proof.
  unfold get_consts, a_const. destruct (String.eqb v "test"); [intros [= <-]; auto|].
  destruct (l =? 90); [intros [= <-]; auto|]. destruct (l =? 100); [intros [= <-]; auto|discriminate].
Qed.
Lemma const_pos c : a_const c ->
  0 < c_div c /\ 0 < c_main c /\ 0 < c_sub c /\ 0 < c_fap c /\ 0 < c_fap_tank c /\ 0 < c_ten c /\ 0 < c_dh c
  /\ 0 < c_speed c /\ 0 < c_crit0 c /\ 0 < c_crit1 c /\ 0 < c_crit2 c /\ 0 < c_det c.
Proof. intros [->| ->]; vm_compute; repeat split. Qed.

Lemma scaled_mono k s v x y : 0 < k -> 0 < v -> (x <= y ->
  ffloor (fdiv (fmul (q k) (fsub x s)) (q v)) <= ffloor (fdiv (fmul (q k) (fsub y s)) (q v)))%Q.
Proof.
  intros. apply ffloor_mono, fdiv_mono; [apply q_pos; assumption|]. apply fmul_mono_r; [apply q_nonneg; lia|].
  apply fsub_mono; [assumption|apply Qle_refl].
Qed.
Lemma fDet_mono c x y : a_const c -> (x <= y -> fDet c x <= fDet c y)%Q.
Proof. intros C L. destruct (const_pos c C) as (?&?&?&?&?&?&?&?&?&?&?&?). apply fadd_mono; [|apply Qle_refl]. apply scaled_mono; assumption. Qed.
Lemma fTnc_mono c x y : a_const c -> (x <= y -> fTnc c x <= fTnc c y)%Q.
Proof. intros C L. destruct (const_pos c C) as (?&?&?&?&?&?&?&?&?&?&?&?). apply fadd_mono; [|apply Qle_refl]. apply scaled_mono; assumption. Qed.
Lemma fDetDH_mono c x y d d' : a_const c -> (x <= y -> d <= d' -> fDetDH c x d <= fDetDH c y d')%Q.
Proof.
  intros C L L'. destruct (const_pos c C) as (?&?&?&?&?&?&?&?&?&?&?&?). apply fadd_mono; [apply fDet_mono; assumption|].
  apply scaled_mono; assumption.
Qed.
Lemma fAP_mono c x y t : a_const c -> (x <= y -> fAP c x t <= fAP c y t)%Q.
Proof.
  intros C L. destruct (const_pos c C) as (?&?&?&?&?&?&?&?&?&?&?&?). apply fadd_mono; [|apply Qle_refl].
  apply scaled_mono; [destruct t; assumption|assumption|assumption].
Qed.
Lemma fSpd_mono c x y : a_const c -> (x <= y -> fSpd c x <= fSpd c y)%Q.
Proof.
  intros C L. destruct (const_pos c C) as (?&?&?&?&?&?&?&?&?&?&?&?). apply ffloor_mono, fadd_mono; [|apply Qle_refl].
  apply fdiv_mono; [apply q_pos; assumption|]. apply fmul_mono_r; [apply q_nonneg; lia|].
  apply fsub_mono; [assumption|apply Qle_refl].
Qed.
Lemma crit_bonus_mono c x y : a_const c -> (x <= y -> crit_bonus_of c x <= crit_bonus_of c y)%Q.
Proof.
  intros C L. destruct (const_pos c C) as (?&?&?&?&?&?&?&?&?&?&?&?). apply fdiv_mono; [apply q_pos; lia|].
  apply fadd_mono; [|apply Qle_refl]. apply scaled_mono; assumption.
Qed.
Lemma bottoms c : a_const c ->
  (0 <= fDet c 0 /\ 0 <= fTnc c 0 /\ 0 <= fDetDH c 0 0 /\ 0 <= fSpd c 0 /\ 0 <= crit_bonus_of c 0)%Q.
Proof. intros [->| ->]; vm_compute; repeat split; discriminate. Qed.

Lemma fDet_btw c x y : a_const c -> (0 <= x -> x <= y -> btw (fDet c x) (fDet c y))%Q.
Proof. intros C N L. destruct (bottoms c C) as (B&_). split; [|apply fDet_mono; assumption]. eapply Qle_trans; [exact B|apply fDet_mono; assumption]. Qed.
Lemma fTnc_btw c x y : a_const c -> (0 <= x -> x <= y -> btw (fTnc c x) (fTnc c y))%Q.
Proof. intros C N L. destruct (bottoms c C) as (_&B&_). split; [|apply fTnc_mono; assumption]. eapply Qle_trans; [exact B|apply fTnc_mono; assumption]. Qed.
Lemma fDetDH_btw c x y d d' : a_const c -> (0 <= x -> x <= y -> btw d d' -> btw (fDetDH c x d) (fDetDH c y d'))%Q.
Proof.
  intros C N L [D L']. destruct (bottoms c C) as (_&_&B&_). split; [|apply fDetDH_mono; assumption].
  eapply Qle_trans; [exact B|apply fDetDH_mono; assumption].
Qed.
Lemma fSpd_nonneg c x : a_const c -> (0 <= x -> 0 <= fSpd c x)%Q.
Proof. intros C N. destruct (bottoms c C) as (_&_&_&B&_). eapply Qle_trans; [exact B|apply fSpd_mono; assumption]. Qed.
Lemma crit_bonus_nonneg c x : a_const c -> (0 <= x -> 0 <= crit_bonus_of c x)%Q.
Proof. intros C N. destruct (bottoms c C) as (_&_&_&_&B). eapply Qle_trans; [exact B|apply crit_bonus_mono; assumption]. Qed.
Lemma fWD_btw c x y j : a_const c -> (0 <= j -> 0 <= x -> x <= y -> btw (fWD c x j) (fWD c y j))%Q.
Proof.
  intros C J N L. destruct (const_pos c C) as (?&?&?&?&?&?&?&?&?&?&?&?). apply btw_ffloor, btw_fadd; [|split; assumption].
  apply btw_same. apply fdiv_nonneg; [|apply q_pos; lia]. apply fmul_nonneg; [apply q_nonneg; lia|assumption].
Qed.
Lemma fAuto_btw c x y w w' j : a_const c -> (0 <= j -> btw w w' -> 0 <= x -> x <= y -> btw (fAuto c x w j) (fAuto c y w' j))%Q.
Proof.
  intros C J W N L. apply btw_ffloor, btw_fmul; [apply fWD_btw; assumption|]. apply btw_fdiv; [apply q_pos; lia|assumption].
Qed.
Lemma fAP_bottom c t : a_const c -> (fAP c 0 t <= 0)%Q.
Proof. intros [->| ->]; destruct t; vm_compute; discriminate. Qed.

Lemma dec_nonneg n d : 0 <= n -> (0 <= dec n d)%Q.
Proof. intros H. Local Transparent dec. unfold dec. Local Opaque dec. apply fl_nonneg. unfold Qle. cbn. lia. Qed.

(** Tables *)
Lemma job_mod_nonneg v j z : job_mod_of v j = Ok z -> 0 <= z.
Proof.
  unfold job_mod_of. intros H.
  assert (F : Forall (fun kv => 0 <= snd kv) (if is_test v then test_job_mods else job_mods)).
  { apply Forall_forall. intros [k x] I. assert (B : forallb (fun kv => 0 <=? snd kv) (if is_test v then test_job_mods else job_mods) = true)
      by (destruct (is_test v); vm_compute; reflexivity).
    rewrite forallb_forall in B. apply B in I. cbn in *. lia. }
  destruct (dget j _) as [y|] eqn:E; cbn in H; [|discriminate]. injection H as ->. apply dget_in in E.
  rewrite Forall_forall in F. apply F in E. exact E.
Qed.
Lemma delay_nonneg j w : dget j weapon_delays = Some w -> (0 <= w)%Q.
Proof.
  intros E. apply dget_in in E.
  assert (B : forallb (fun kv => Qle_bool 0 (snd kv)) weapon_delays = true) by (vm_compute; reflexivity).
  rewrite forallb_forall in B. apply B in E. apply Qle_bool_iff in E. exact E.
Qed.

(** Two processed stats, the second at least as good. *)
Definition opt_btw (a b : option Q) : Prop :=
  match a, b with Some x, Some y => btw x y | None, None => True | _, _ => False end.
Record up (st st' : stats) : Prop := mkUp {
  up_wd : btw (st_wd st) (st_wd st');
  up_main : (st_main_stat st <= st_main_stat st')%Q;
  up_det : btw (st_det st) (st_det st');
  up_det_bonus : btw (ps_det_bonus st) (ps_det_bonus st');
  up_ten : opt_btw (st_tenacity st) (st_tenacity st');
  up_delay : btw (st_weapon_delay st) (st_weapon_delay st');
  up_dh : btw (st_dh st) (st_dh st');
  up_crit : btw (ps_crit_bonus st) (ps_crit_bonus st');
  up_speed : btw (st_speed st) (st_speed st');
  up_job : st_job st' = st_job st;
  up_version : st_version st' = st_version st;
  up_roles : btw (st_num_roles st) (st_num_roles st');
  up_healer : opt_btw (st_healer_strength st) (st_healer_strength st');
  up_level : st_level st' = st_level st;
  up_mod : (0 <= ps_job_mod st)%Q /\ ps_job_mod st' = ps_job_mod st
}.

Lemma better_up g g' st : gear_nonneg g -> better g g' -> stats_of g = Ok st -> exists st', stats_of g' = Ok st' /\ up st st'.
Proof.
  destruct g as [wd dl mn det dh crit sp job ver ten roles heal lev].
  destruct g' as [wd' dl' mn' det' dh' crit' sp' job' ver' ten' roles' heal' lev'].
  unfold gear_nonneg, better, stats_of, make_stats. cbn -[dget].
  intros (N1&N2&N3&N4&N5&N6&N7&N8&N9) (L1&L2&L3&L4&L5&L6&L7&L8&L9&L10&E1&E2&E3) H. subst.
  apply bind_ok in H as (c & Ec & H). apply bind_ok in H as (jm & Ej & H). apply bind_ok in H as (red & Er & H).
  apply bind_ok in H as (w & Ew & H). rewrite Ec, Ej, Er. cbn -[dget].
  pose proof (get_consts_const _ _ _ Ec) as C. pose proof (job_mod_nonneg _ _ _ Ej) as J.
  assert (W : exists w', match dl' with Some w => Ok w | None => of_option KeyError (dget job weapon_delays) end = Ok w' /\ btw w w').
  { destruct dl as [x|], dl' as [x'|]; cbn in L2; try contradiction.
    - injection Ew as <-. exists x'. split; [reflexivity|split; assumption].
    - exists w. split; [exact Ew|]. destruct (dget job weapon_delays) eqn:D.
      + injection Ew as <-. apply btw_same, (delay_nonneg _ _ D).
      + discriminate Ew. }
  destruct W as (w' & Ew' & W). rewrite Ew'. cbn -[dget]. eexists. split; [reflexivity|].
  injection H as <-. constructor; cbn.
  - split; assumption.
  - assumption.
  - split; assumption.
  - apply fDet_btw; assumption.
  - destruct ten, ten'; cbn in *; try assumption; split; assumption.
  - exact W.
  - split; assumption.
  - split; [apply crit_bonus_nonneg; assumption|apply crit_bonus_mono; assumption].
  - split; assumption.
  - reflexivity.
  - reflexivity.
  - split; assumption.
  - destruct heal, heal'; cbn in *; try assumption; split; assumption.
  - reflexivity.
  - split; [apply q_nonneg, J|reflexivity].
Qed.

(** Base damage of class formulas: not smaller, or the smaller one is not positive. *)
Definition rises (x y : res Q) : Prop :=
  forall b, x = Ok b -> exists b', y = Ok b' /\ (b <= 0 \/ btw b b')%Q.

Section Rise.
  Variables (c : consts) (d d' : damage_spec) (m : modifier) (st st' : stats) (e : effects2).
  Hypothesis C : a_const c.
  Hypothesis U : up st st'.
  Hypothesis S : stronger d d'.
  Hypothesis N : spec_nonneg d.
  Hypothesis E1 : effects_nonneg (fst e).
  Hypothesis E2 : effects_nonneg (snd e).

  Lemma forced_dh_same f : forced_dh f d' m e = forced_dh f d m e.
  Proof. unfold forced_dh. destruct S as (_&_&_&->&_). reflexivity. Qed.
  Lemma forced_crit_same f : forced_crit f d' m e = forced_crit f d m e.
  Proof. unfold forced_crit. destruct S as (_&_&->&_). reflexivity. Qed.
  Lemma dhb_btw : btw (dh_bonus_multiplier d m e) (dh_bonus_multiplier d' m e).
  Proof.
    unfold dh_bonus_multiplier. rewrite forced_dh_same. destruct (forced_dh F_YES d m e); [|apply btw_same, Qle_refl].
    apply btw_same, fmul_nonneg; [apply dec_nonneg; lia|]. apply fadd_nonneg; [apply E1|apply E2].
  Qed.
  Lemma cb_btw : btw (crit_bonus_multiplier st d m e) (crit_bonus_multiplier st' d' m e).
  Proof.
    unfold crit_bonus_multiplier. rewrite forced_crit_same.
    destruct (forced_crit F_YES d m e); [|apply btw_same, Qle_refl].
    apply btw_fmul; [apply U|]. apply btw_same, fadd_nonneg; [apply E1|apply E2].
  Qed.
  Lemma det_btw : btw (det_dh_of c st d m e) (det_dh_of c st' d' m e).
  Proof.
    unfold det_dh_of. rewrite forced_dh_same. destruct (forced_dh F_YES d m e); [|apply U].
    destruct (up_det _ _ U). apply fDetDH_btw; [assumption|assumption|assumption|apply U].
  Qed.
  Lemma single_btw : btw (single_damage_mult d) (single_damage_mult d').
  Proof. destruct S as (_&_&_&_&_&_&_&->). apply btw_same, N. Qed.
  Lemma potency_btw : btw (potency d) (potency d').
  Proof. split; [apply N|apply S]. Qed.
  Lemma finish_rises b b' : (b <= 0 \/ btw b b')%Q ->
    (finish_damage st d m e b <= 0 \/ btw (finish_damage st d m e b) (finish_damage st' d' m e b'))%Q.
  Proof.
    pose proof dhb_btw as D. pose proof cb_btw as B. pose proof single_btw as G. intros [L|L].
    - left. unfold finish_damage. apply fmul_nonpos_l; [|apply (btw_nonneg _ _ G)]. apply fadd_nonpos; [exact L|].
      apply fadd_nonpos; apply ffloor_nonpos, fmul_nonpos_l; [exact L|apply (btw_nonneg _ _ D)|exact L|apply (btw_nonneg _ _ B)].
    - right. unfold finish_damage. apply btw_fmul; [|exact G]. apply btw_fadd; [exact L|].
      apply btw_fadd; apply btw_ffloor, btw_fmul; assumption.
  Qed.
  Lemma tank_same : st_is_tank st' = st_is_tank st.
  Proof. unfold st_is_tank. rewrite (up_job _ _ U), (up_version _ _ U). reflexivity. Qed.
  Lemma strength_same : uses_strength st' = uses_strength st.
  Proof. unfold uses_strength. rewrite (up_job _ _ U), (up_version _ _ U). reflexivity. Qed.
  Lemma tnc_btw t : tnc_of c st = Ok t -> exists t', tnc_of c st' = Ok t' /\ btw t t'.
  Proof.
    unfold tnc_of. pose proof (up_ten _ _ U) as T. destruct (st_tenacity st) as [x|], (st_tenacity st') as [y|]; cbn; try contradiction; try discriminate.
    intros [= <-]. exists (fTnc c y). split; [reflexivity|]. destruct T. apply fTnc_btw; assumption.
  Qed.
  Lemma q10 : (0 < q 10)%Q. Proof. apply q_pos; lia. Qed.
  Lemma q100 : (0 < q 100)%Q. Proof. apply q_pos; lia. Qed.
  Lemma q1000 : (0 < q 1000)%Q. Proof. apply q_pos; lia. Qed.
  Lemma with_tnc_rises b b' x : (b <= 0 \/ btw b b')%Q -> with_tnc c st b = Ok x ->
    exists x', with_tnc c st' b' = Ok x' /\ (x <= 0 \/ btw x x')%Q.
  Proof.
    intros R. unfold with_tnc. rewrite tank_same. destruct (st_is_tank st); [|intros [= <-]; eauto].
    intros H. apply bind_ok in H as (t & Et & H). injection H as <-. destruct (tnc_btw t Et) as (t' & Et' & T). rewrite Et'. cbn.
    eexists. split; [reflexivity|]. destruct R as [R|R].
    - left. apply fdiv_nonpos, ffloor_nonpos, fdiv_nonpos, fmul_nonpos_l; [apply q100|apply q10|exact R|apply (btw_nonneg _ _ T)].
    - right. apply btw_fdiv, btw_ffloor, btw_fdiv, btw_fmul; [apply q100|apply q10|exact R|exact T].
  Qed.
  Lemma dot_tnc_rises b b' x : (b <= 0 \/ btw b b')%Q -> dot_tnc c st b = Ok x ->
    exists x', dot_tnc c st' b' = Ok x' /\ (x <= 0 \/ btw x x')%Q.
  Proof.
    intros R. unfold dot_tnc. rewrite tank_same. destruct (st_is_tank st); [|intros [= <-]; eauto].
    intros H. apply bind_ok in H as (t & Et & H). injection H as <-. destruct (tnc_btw t Et) as (t' & Et' & T). rewrite Et'. cbn.
    eexists. split; [reflexivity|]. destruct R as [R|R].
    - left. apply ffloor_nonpos, fdiv_nonpos, fmul_nonpos_l; [apply q1000|exact R|apply (btw_nonneg _ _ T)].
    - right. apply btw_ffloor, btw_fdiv, btw_fmul; [apply q1000|exact R|exact T].
  Qed.
  Lemma buffed_mono x y : (x <= y -> buffed_main_stat x e <= buffed_main_stat y e)%Q.
  Proof.
    intros L. unfold buffed_main_stat. apply fadd_mono; [|apply Qle_refl]. apply ffloor_mono.
    apply fmul_mono_l; [|apply E2]. apply fmul_mono_l; [exact L|apply E1].
  Qed.
  Lemma party_bonus_btw : btw (party_bonus st) (party_bonus st').
  Proof.
    unfold party_bonus. apply btw_fadd; [apply btw_same; lra|]. apply btw_fmul; [apply btw_same, dec_nonneg; lia|apply U].
  Qed.
  (** Attack power: not positive, or risen. *)
  Lemma ap_cases x y t : (x <= y)%Q -> (fAP c x t <= 0 \/ btw (fAP c x t) (fAP c y t))%Q.
  Proof.
    intros L. destruct (Qlt_le_dec (fAP c x t) 0) as [P|P]; [left; lra|]. right. split; [exact P|]. apply fAP_mono; assumption.
  Qed.
  Lemma party_cases t : (fAP c (party_main_stat st e) t <= 0 \/ btw (fAP c (party_main_stat st e) t) (fAP c (party_main_stat st' e) t))%Q.
  Proof.
    unfold party_main_stat. pose proof (buffed_mono _ _ (up_main _ _ U)) as M. pose proof party_bonus_btw as P.
    destruct (Qlt_le_dec (buffed_main_stat (st_main_stat st) e) 0) as [B|B].
    - left. apply Qle_trans with (fAP c 0 t); [|apply fAP_bottom; assumption]. apply fAP_mono; [assumption|].
      apply ffloor_nonpos, fmul_nonpos_l; [lra|apply (btw_nonneg _ _ P)].
    - apply ap_cases. apply (btw_le (ffloor _) (ffloor _)), btw_ffloor, btw_fmul; [split; assumption|exact P].
  Qed.
  Lemma ap_det_rises p p' ap ap' dt dt' : btw p p' -> btw dt dt' -> (ap <= 0 \/ btw ap ap')%Q ->
    (ap_det p ap dt <= 0 \/ btw (ap_det p ap dt) (ap_det p' ap' dt'))%Q.
  Proof.
    intros P D [A|A].
    - left. unfold ap_det. apply fdiv_nonpos, ffloor_nonpos, fdiv_nonpos; [apply q100|apply q10|].
      apply fmul_nonpos_l; [|apply (btw_nonneg _ _ D)]. apply fdiv_nonpos, ffloor_nonpos, fdiv_nonpos; [apply q100|apply q100|].
      apply fmul_nonpos_r; [apply (btw_nonneg _ _ P)|exact A].
    - right. unfold ap_det. apply btw_fdiv, btw_ffloor, btw_fdiv; [apply q100|apply q10|].
      apply btw_fmul; [|exact D]. apply btw_fdiv, btw_ffloor, btw_fdiv; [apply q100|apply q100|]. apply btw_fmul; assumption.
  Qed.
  Lemma mul_rises b b' w w' : (b <= 0 \/ btw b b')%Q -> btw w w' -> (fmul b w <= 0 \/ btw (fmul b w) (fmul b' w'))%Q.
  Proof. intros [B|B] W; [left; apply fmul_nonpos_l; [exact B|apply (btw_nonneg _ _ W)]|right; apply btw_fmul; assumption]. Qed.
  Lemma floor_rises b b' : (b <= 0 \/ btw b b')%Q -> (ffloor b <= 0 \/ btw (ffloor b) (ffloor b'))%Q.
  Proof. intros [B|B]; [left; apply ffloor_nonpos, B|right; apply btw_ffloor, B]. Qed.
  Lemma div_rises b b' k : (0 < k)%Q -> (b <= 0 \/ btw b b')%Q -> (fdiv b k <= 0 \/ btw (fdiv b k) (fdiv b' k))%Q.
  Proof. intros K [B|B]; [left; apply fdiv_nonpos; assumption|right; apply btw_fdiv; assumption]. Qed.
  Lemma mul_rises_r b b' w w' : btw w w' -> (b <= 0 \/ btw b b')%Q -> (fmul w b <= 0 \/ btw (fmul w b) (fmul w' b'))%Q.
  Proof. intros W [B|B]; [left; apply fmul_nonpos_r; [apply (btw_nonneg _ _ W)|exact B]|right; apply btw_fmul; assumption]. Qed.

  Lemma wd_btw : btw (fWD c (st_wd st) (ps_job_mod st)) (fWD c (st_wd st') (ps_job_mod st')).
  Proof. destruct (up_mod _ _ U) as [P ->]. destruct (up_wd _ _ U). apply fWD_btw; assumption. Qed.
  Lemma spd_btw : btw (fSpd c (st_speed st)) (fSpd c (st_speed st')).
  Proof. destruct (up_speed _ _ U) as [P L]. split; [apply fSpd_nonneg; assumption|apply fSpd_mono; assumption]. Qed.

  Lemma direct_rises : rises (direct_damage c d m st e) (direct_damage c d' m st' e).
  Proof.
    intros x. unfold direct_damage. rewrite tank_same, strength_same. intros H. apply bind_ok in H as (b & Eb & H). injection H as <-.
    pose proof (party_cases (st_is_tank st)) as A.
    assert (R : exists b', (if uses_strength st
        then Ok (ffloor (fmul (fdiv (ffloor (fdiv (fmul (fAP c (party_main_stat st' e) (st_is_tank st)) (det_dh_of c st' d' m e)) (q 1000))) (q 100))
               (ffloor (fdiv (fmul (fWD c (st_wd st') (ps_job_mod st')) (potency d')) (q 100)))))
        else let* b1 := with_tnc c st' (ap_det (potency d') (fAP c (party_main_stat st' e) (st_is_tank st)) (det_dh_of c st' d' m e)) in
             Ok (ffloor (ffloor (fmul b1 (fWD c (st_wd st') (ps_job_mod st')))))) = Ok b' /\ (b <= 0 \/ btw b b')%Q).
    { destruct (uses_strength st).
      - injection Eb as <-. eexists. split; [reflexivity|]. apply floor_rises, mul_rises.
        + apply div_rises, floor_rises, div_rises, mul_rises; [apply q100|apply q1000|exact A|apply det_btw].
        + apply btw_ffloor, btw_fdiv, btw_fmul; [apply q100|apply wd_btw|apply potency_btw].
      - apply bind_ok in Eb as (b1 & E3 & Eb). injection Eb as <-.
        destruct (with_tnc_rises _ _ _ (ap_det_rises _ _ _ _ _ _ potency_btw det_btw A) E3) as (y & Ey & Ry). rewrite Ey. cbn.
        eexists. split; [reflexivity|]. apply floor_rises, floor_rises, mul_rises; [exact Ry|apply wd_btw]. }
    destruct R as (b' & Eb' & R). rewrite Eb'. cbn. eexists. split; [reflexivity|]. apply finish_rises, R.
  Qed.
  Lemma magical_rises : rises (magical_dot_damage c d m st e) (magical_dot_damage c d' m st' e).
  Proof.
    intros x. unfold magical_dot_damage. rewrite tank_same. intros H. apply bind_ok in H as (b & Eb & H). injection H as <-.
    pose proof (party_cases (st_is_tank st)) as A.
    edestruct dot_tnc_rises as (y & Ey & Ry); [|exact Eb|].
    2:{ rewrite Ey. cbn. eexists. split; [reflexivity|]. apply finish_rises, floor_rises, div_rises, floor_rises, div_rises; [apply q100|apply q1000|exact Ry]. }
    apply floor_rises, div_rises, floor_rises, mul_rises; [apply q1000| |apply det_btw].
    apply floor_rises, floor_rises, mul_rises; [|apply spd_btw]. apply floor_rises, mul_rises_r; [|exact A].
    apply btw_ffloor, btw_fdiv, btw_ffloor, btw_fmul; [apply q100|apply potency_btw|apply wd_btw].
  Qed.
  Lemma physical_rises : rises (physical_dot_damage c d m st e) (physical_dot_damage c d' m st' e).
  Proof.
    intros x. unfold physical_dot_damage. rewrite tank_same. intros H. apply bind_ok in H as (b & Eb & H). injection H as <-.
    pose proof (party_cases (st_is_tank st)) as A.
    edestruct dot_tnc_rises as (y & Ey & Ry); [|exact Eb|].
    2:{ rewrite Ey. cbn. eexists. split; [reflexivity|]. apply finish_rises, floor_rises, div_rises, floor_rises, mul_rises; [apply q100| |apply wd_btw].
        apply floor_rises, div_rises, floor_rises, mul_rises; [apply q1000|exact Ry|apply spd_btw]. }
    apply div_rises, floor_rises, div_rises, mul_rises; [apply q1000|apply q100| |apply det_btw].
    apply mul_rises_r; [apply potency_btw|exact A].
  Qed.
  Lemma pet_rises : rises (pet_damage c d m st e) (pet_damage c d' m st' e).
  Proof.
    intros x. unfold pet_damage. destruct S as (_&_&_&_&_&EJ&EP&_). rewrite EJ, EP. destruct (up_mod _ _ U) as [PM ->].
    set (jm := match pet_job_mod_override d with Some j => j | None => ps_job_mod st end).
    assert (J : (0 <= jm)%Q) by (unfold jm; destruct N as (_&N1&_); destruct (pet_job_mod_override d); assumption).
    intros H. apply bind_ok in H as (b & Eb & H). injection H as <-.
    edestruct with_tnc_rises as (y & Ey & Ry); [|exact Eb|].
    2:{ rewrite Ey. cbn. eexists. split; [reflexivity|]. apply finish_rises, floor_rises, floor_rises, mul_rises; [exact Ry|].
        destruct (up_wd _ _ U). apply fWD_btw; assumption. }
    apply ap_det_rises; [apply potency_btw|apply det_btw|]. apply ap_cases. apply fmul_mono_l; [|apply N].
    apply buffed_mono, fsub_mono; [apply U|apply Qle_refl].
  Qed.
  Lemma auto_rises : rises (auto_damage c d m st e) (auto_damage c d' m st' e).
  Proof.
    intros x. unfold auto_damage. rewrite tank_same, strength_same, (up_job _ _ U), (up_version _ _ U).
    pose proof party_bonus_btw as PB. intros H. apply bind_ok in H as (mn & Em & H). apply bind_ok in H as (b & Eb & H). injection H as <-.
    assert (M : exists mn', (if uses_strength st then let* s := of_option RuntimeError (st_healer_strength st') in Ok (fmul s (party_bonus st'))
                             else Ok (party_main_stat st' e)) = Ok mn'
                            /\ (fAP c mn (st_is_tank st) <= 0 \/ btw (fAP c mn (st_is_tank st)) (fAP c mn' (st_is_tank st)))%Q).
    { destruct (uses_strength st).
      - pose proof (up_healer _ _ U) as Hh. destruct (st_healer_strength st) as [s|], (st_healer_strength st') as [s'|]; cbn in *; try contradiction; try discriminate.
        injection Em as <-. eexists. split; [reflexivity|]. apply ap_cases. apply btw_le, btw_fmul; assumption.
      - injection Em as <-. eexists. split; [reflexivity|apply party_cases]. }
    destruct M as (mn' & Em' & M). rewrite Em'. cbn.
    edestruct with_tnc_rises as (y & Ey & Ry);
      [apply (ap_det_rises _ _ _ _ _ _ potency_btw det_btw M)|exact Eb|].
    rewrite Ey. cbn. eexists. split; [reflexivity|]. apply finish_rises, floor_rises, div_rises, floor_rises, mul_rises; [apply q100| |].
    - apply div_rises, floor_rises, mul_rises; [apply q10|exact Ry|]. destruct (uses_sks _ _); [apply spd_btw|].
      apply btw_same, q_nonneg; lia.
    - destruct (up_mod _ _ U) as [PM ->]. destruct (up_wd _ _ U). apply fAuto_btw; try assumption. apply U.
  Qed.
  Lemma class_rises : rises (class_damage c d m st e) (class_damage c d' m st' e).
  Proof.
    unfold class_damage. destruct S as (_&->&_). destruct (damage_class d);
      first [apply direct_rises|apply physical_rises|apply magical_rises|apply pet_rises|apply auto_rises|intros ? [=]].
  Qed.
End Rise.

Lemma base_damage_rises g g' st s s' m e d d' b :
  gear_nonneg g -> better g g' -> stats_of g = Ok st ->
  get_damage_spec s m = Ok (Some d) -> get_damage_spec s' m = Ok (Some d') -> spec_nonneg d -> stronger d d' ->
  effects_nonneg (fst e) -> effects_nonneg (snd e) ->
  get_base_damage s m st e = Ok (Some b) ->
  exists st', stats_of g' = Ok st'
    /\ (forall b', get_base_damage s' m st' e = Ok (Some b') -> (b <= b')%Q)
    /\ (~ (potency d == 0)%Q -> exists b', get_base_damage s' m st' e = Ok (Some b')).
Proof.
  intros NG B Hs Hd Hd' ND SD E1 E2 H. destruct (better_up g g' st NG B Hs) as (st' & Hs' & U). exists st'. split; [exact Hs'|].
  destruct (Qeq_bool (potency d) 0) eqn:P.
  - apply Qeq_bool_iff in P. split; [|intros X; destruct (X P)]. intros b' H'.
    apply base_damage_cases in H. apply base_damage_cases in H'. destruct H as (x & Ex & H). destruct H' as (y & _ & H').
    rewrite Hd in Ex. injection Ex as <-. destruct H as [[_ H]|[H _]]; [|destruct (H P)]. destruct H' as [[_ H']|[_ H']]; lra.
  - pose proof (Qeq_bool_neq _ _ P) as NP. assert (P' : Qeq_bool (potency d') 0 = false).
    { destruct (Qeq_bool (potency d') 0) eqn:P'; [|reflexivity]. apply Qeq_bool_iff in P'. destruct NP.
      destruct ND as (ND&_). destruct SD as (SD&_). lra. }
    unfold get_base_damage in *. rewrite Hd in H. rewrite Hd'. cbn [bind] in *. rewrite P in H. rewrite P'.
    apply bind_ok in H as (c & Ec & H). apply bind_ok in H as (x & Ex & H). injection H as <-.
    rewrite (up_version _ _ U), (up_level _ _ U), Ec. cbn [bind].
    destruct (class_rises c d d' m st st' e (get_consts_const _ _ _ Ec) U SD ND E1 E2 x Ex) as (x' & Ex' & R). rewrite Ex'. cbn [bind].
    split; [|intros _; eauto]. intros b' [= <-]. apply qmax_lub; [|apply qmax_le_r]. destruct R as [R|R].
    + apply Qle_trans with 1%Q; [lra|apply qmax_le_r].
    + apply Qle_trans with x'; [apply R|apply qmax_le_l].
Qed.
