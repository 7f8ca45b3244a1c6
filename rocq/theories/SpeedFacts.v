(** * Speed stat facts (C44) *)

From Coq Require Import ZArith QArith Qround Qabs List String Bool Lia Lqa.
From Verif Require Import Base Float Types Stats StatusEffect Lookup Rotation BaseFacts FloatFacts SpecSpeed.
Import ListNotations.
Open Scope Z_scope.
Local Opaque fl.

(** The two factors of [time_using_speed_stat]. *)
Definition speed_factor (c : consts) (s : Q) : Q :=
  fadd (q 1000) (fceil (fdiv (fmul (q (c_speed c)) (fsub (q (c_sub c)) s)) (q (c_div c)))).
Definition base_scaled (t : Z) (f : Q) : Z :=
  qtrunc (fmul (q 1000) (fdiv (ffloor (fdiv (fmul (q t) f) (q 10000))) (q 100))).
Lemma time_eq c t s : time_using_speed_stat c t s = base_scaled t (speed_factor c s).
Proof. unfold base_scaled, speed_factor, time_using_speed_stat. cbv zeta. reflexivity. Qed.

Definition sane (c : consts) : Prop := (0 < c_div c)%Z /\ (0 <= c_speed c)%Z.
Lemma consts_cases v l c : get_consts v l = Ok c -> c = consts_90 \/ c = consts_100.
Proof.
  unfold get_consts. destruct (String.eqb v "test"); [intros H; injection H as <-; auto|].
  destruct (l =? 90); [intros H; injection H as <-; auto|]. destruct (l =? 100); [intros H; injection H as <-; auto | discriminate].
Qed.
Lemma consts_sane v l c : get_consts v l = Ok c -> sane c.
Proof. intros H. apply consts_cases in H as [->| ->]; split; vm_compute; congruence. Qed.

Lemma speed_factor_mono c s s' : sane c -> (s <= s')%Q -> (speed_factor c s' <= speed_factor c s)%Q.
Proof.
  intros (D & S) L. unfold speed_factor. apply fadd_mono; [apply Qle_refl|]. apply fceil_mono, fdiv_mono.
  - apply (inject_Z_lt 0). exact D.
  - apply fmul_mono_r; [apply (inject_Z_le 0); exact S|]. apply fsub_mono; [apply Qle_refl | exact L].
Qed.
Lemma speed_factor_nonneg v l c s : get_consts v l = Ok c -> (s <= 15000)%Q -> (0 <= speed_factor c s)%Q.
Proof.
  intros H L. apply Qle_trans with (speed_factor c 15000).
  - apply consts_cases in H as [->| ->]; vm_compute; discriminate.
  - apply speed_factor_mono; [eapply consts_sane, H | exact L].
Qed.

Lemma base_scaled_mono_f t f f' : 0 <= t -> (f <= f')%Q -> base_scaled t f <= base_scaled t f'.
Proof.
  intros T L. unfold base_scaled. apply qtrunc_mono, fmul_mono_r; [vm_compute; discriminate|].
  apply fdiv_mono; [reflexivity|]. apply ffloor_mono, fdiv_mono; [reflexivity|]. apply fmul_mono_r; [apply (inject_Z_le 0), T | exact L].
Qed.
Lemma base_scaled_mono_t t t' f : t <= t' -> (0 <= f)%Q -> base_scaled t f <= base_scaled t' f.
Proof.
  intros T L. unfold base_scaled. apply qtrunc_mono, fmul_mono_r; [vm_compute; discriminate|].
  apply fdiv_mono; [reflexivity|]. apply ffloor_mono, fdiv_mono; [reflexivity|]. apply fmul_mono_l; [apply inject_Z_le, T | exact L].
Qed.
Lemma base_scaled_0 f : base_scaled 0 f = 0.
Proof.
  unfold base_scaled.
  assert (E : (fmul (q 0) f == 0)%Q). { unfold fmul. rewrite fl_zero; [reflexivity|]. unfold q. change (inject_Z 0) with 0%Q. ring. }
  erewrite qtrunc_compat.
  2:{ unfold fmul, fdiv. apply fl_compat. apply Qmult_comp; [reflexivity|]. apply fl_compat. apply Qdiv_comp; [|reflexivity].
      apply ffloor_compat. apply fl_compat. apply Qdiv_comp; [exact E | reflexivity]. }
  vm_compute. reflexivity.
Qed.

(** ** [get_time_using_speed_stat] *)

Lemma faster_not_slower v l t s s' r r' :
  0 <= t -> (s <= s')%Q ->
  get_time_using_speed_stat t s v l = Ok r -> get_time_using_speed_stat t s' v l = Ok r' -> r' <= r.
Proof.
  unfold get_time_using_speed_stat. intros T L H H'. inv_bind H. rewrite E in H'. cbn [bind] in H'.
  injection H as <-. injection H' as <-. rewrite !time_eq. apply base_scaled_mono_f; [exact T|].
  apply speed_factor_mono; [eapply consts_sane, E | exact L].
Qed.
Lemma longer_base v l t t' s r r' :
  t <= t' -> (s <= 15000)%Q ->
  get_time_using_speed_stat t s v l = Ok r -> get_time_using_speed_stat t' s v l = Ok r' -> r <= r'.
Proof.
  unfold get_time_using_speed_stat. intros T L H H'. inv_bind H. rewrite E in H'. cbn [bind] in H'.
  injection H as <-. injection H' as <-. rewrite !time_eq. apply base_scaled_mono_t; [exact T|].
  eapply speed_factor_nonneg; eassumption.
Qed.
Lemma never_negative v l t s r :
  0 <= t -> (s <= 15000)%Q -> get_time_using_speed_stat t s v l = Ok r -> 0 <= r.
Proof.
  intros T L H. unfold get_time_using_speed_stat in H. inv_bind H. injection H as <-. rewrite time_eq.
  rewrite <- (base_scaled_0 (speed_factor a s)). apply base_scaled_mono_t; [exact T | eapply speed_factor_nonneg; eassumption].
Qed.

(** ** At base speed *)

Lemma Qabs_le_iff x y : (Qabs x <= y)%Q -> (- y <= x /\ x <= y)%Q.
Proof. apply Qabs_Qle_condition. Qed.

Lemma floor_tenth t : 0 <= t <= 2 ^ 40 -> Qfloor (fdiv (inject_Z (t * 1000)) 10000) = t / 10.
Proof.
  intros T. set (n := t / 10). pose proof (Z.div_mod t 10 ltac:(lia)) as Dm. fold n in Dm.
  pose proof (Z.mod_pos_bound t 10 ltac:(lia)) as Mb.
  assert (B : 0 <= n <= 2 ^ 40) by (unfold n; split; [apply Z.div_pos; lia|]; apply Z.div_le_upper_bound; lia).
  assert (X : (inject_Z (t * 1000) / 10000 == inject_Z t / 10)%Q).
  { rewrite inject_Z_mult. change (inject_Z 1000) with 1000%Q. field. }
  assert (L : (inject_Z n <= fdiv (inject_Z (t * 1000)) 10000)%Q).
  { unfold fdiv. rewrite X. apply fl_ge_int; [lia|]. apply Qle_shift_div_l; [reflexivity|].
    change 10%Q with (inject_Z 10). rewrite <- inject_Z_mult. apply inject_Z_le. lia. }
  assert (U : (fdiv (inject_Z (t * 1000)) 10000 < inject_Z (n + 1))%Q).
  { unfold fdiv. rewrite X.
    assert (Y : (inject_Z t / 10 <= inject_Z (10 * n + 9) / 10)%Q) by (apply Qdiv_mono; [reflexivity|]; apply inject_Z_le; lia).
    apply fl_mono in Y. eapply Qle_lt_trans; [exact Y|].
    pose proof (fl_error (inject_Z (10 * n + 9) / 10)) as Er. apply Qabs_le_iff in Er as (_ & Er).
    assert (P : (0 <= inject_Z (10 * n + 9) / 10)%Q).
    { apply Qle_shift_div_l; [reflexivity|]. rewrite Qmult_0_l. apply (inject_Z_le 0). lia. }
    rewrite Qabs_pos in Er by exact P.
    assert (V : (inject_Z (10 * n + 9) / 10 == inject_Z n + (9 # 10))%Q).
    { rewrite inject_Z_plus, inject_Z_mult. change (inject_Z 10) with 10%Q. change (inject_Z 9) with 9%Q. field. }
    rewrite V in Er |- *. rewrite inject_Z_plus. change (inject_Z 1) with 1%Q.
    assert (N : (inject_Z n <= inject_Z (2 ^ 40))%Q) by (apply inject_Z_le; lia).
    assert (K : ((inject_Z n + (9 # 10)) * pow2 (-53) <= (1 # 20))%Q).
    { apply Qle_trans with ((inject_Z (2 ^ 40) + (9 # 10)) * pow2 (-53))%Q.
      - apply Qmult_le_compat_r; [lra | apply Qlt_le_weak, pow2_pos].
      - vm_compute. discriminate. }
    lra. }
  apply Z.le_antisymm.
  - apply Z.lt_succ_r. apply inject_Z_lt_inv. eapply Qle_lt_trans; [apply Qfloor_le | exact U].
  - rewrite <- (Qfloor_Z n). apply Qfloor_resp_le, L.
Qed.

Lemma hundredths n : 0 <= n <= 2 ^ 40 ->
  10 * n - 1 <= qtrunc (fmul 1000 (fdiv (inject_Z n) 100)) <= 10 * n.
Proof.
  intros B. set (x := fdiv (inject_Z n) 100). set (y := fmul 1000 x).
  assert (N : (0 <= inject_Z n <= inject_Z (2 ^ 40))%Q) by (split; [apply (inject_Z_le 0) | apply inject_Z_le]; lia).
  assert (Px : (0 <= inject_Z n / 100)%Q) by (apply Qle_shift_div_l; [reflexivity|]; rewrite Qmult_0_l; apply N).
  pose proof (fl_error (inject_Z n / 100)) as E1. rewrite (Qabs_pos _ Px) in E1.
  change (fl (inject_Z n / 100)) with x in E1. apply Qabs_le_iff in E1 as (E1 & E2).
  assert (X0 : (0 <= x)%Q) by (apply fl_nonneg, Px).
  pose proof (fl_error (1000 * x)) as F1. change (fl (1000 * x)) with y in F1. rewrite (Qabs_pos (1000 * x)) in F1 by lra.
  apply Qabs_le_iff in F1 as (F1 & F2).
  set (d := pow2 (-53)) in *. assert (D : (0 < d)%Q) by apply pow2_pos.
  assert (Dv : (d == 1 # (2 ^ 53))%Q) by reflexivity.
  assert (H100 : (inject_Z n / 100 == inject_Z n * (1 # 100))%Q) by field.
  rewrite H100 in *.
  assert (Dn : (inject_Z n * d <= 1 # 8000)%Q).
  { apply Qle_trans with (inject_Z (2 ^ 40) * d)%Q; [apply Qmult_le_compat_r; [apply N | lra]|]. vm_compute. discriminate. }
  assert (Xb : (x <= inject_Z n * (1 # 100) + 1)%Q) by lra.
  assert (Dx : (x * d <= 1 # 4000)%Q).
  { apply Qle_trans with ((inject_Z n * (1 # 100) + 1) * d)%Q; [apply Qmult_le_compat_r; [exact Xb | lra]|].
    assert ((inject_Z n * (1 # 100) + 1) * d == inject_Z n * d * (1 # 100) + d)%Q as -> by ring.
    assert (d <= 1 # 800000)%Q by (vm_compute; discriminate). lra. }
  assert (Y0 : (0 <= y)%Q) by (apply fl_nonneg; lra).
  rewrite qtrunc_nonneg by exact Y0.
  assert (Lo : (inject_Z (10 * n - 1) <= y)%Q).
  { unfold Z.sub. rewrite inject_Z_plus, inject_Z_mult. change (inject_Z 10) with 10%Q. change (inject_Z (- (1))) with (-1)%Q.
    assert (1000 * x * d == 1000 * (x * d))%Q as Q1 by ring. rewrite Q1 in *.
    assert (inject_Z n * (1 # 100) * d == inject_Z n * d * (1 # 100))%Q as Q2 by ring. rewrite Q2 in *. lra. }
  assert (Hi : (y < inject_Z (10 * n + 1))%Q).
  { rewrite inject_Z_plus, inject_Z_mult. change (inject_Z 10) with 10%Q. change (inject_Z 1) with 1%Q.
    assert (1000 * x * d == 1000 * (x * d))%Q as Q1 by ring. rewrite Q1 in *.
    assert (inject_Z n * (1 # 100) * d == inject_Z n * d * (1 # 100))%Q as Q2 by ring. rewrite Q2 in *. lra. }
  split.
  - rewrite <- (Qfloor_Z (10 * n - 1)). apply Qfloor_resp_le, Lo.
  - apply Z.lt_succ_r. apply inject_Z_lt_inv. eapply Qle_lt_trans; [apply Qfloor_le | exact Hi].
Qed.

Lemma at_base_speed v l c t r :
  get_consts v l = Ok c -> 0 <= t <= 2 ^ 40 ->
  get_time_using_speed_stat t (inject_Z (c_sub c)) v l = Ok r ->
  10 * (t / 10) - 1 <= r <= 10 * (t / 10).
Proof.
  intros G T H. unfold get_time_using_speed_stat in H. rewrite G in H. cbn [bind] in H. injection H as <-. rewrite time_eq.
  assert (F : (speed_factor c (inject_Z (c_sub c)) == inject_Z 1000)%Q).
  { apply consts_cases in G as [->| ->]; vm_compute; reflexivity. }
  unfold base_scaled.
  assert (E : (ffloor (fdiv (fmul (q t) (speed_factor c (inject_Z (c_sub c)))) (q 10000)) == inject_Z (t / 10))%Q).
  { rewrite <- (floor_tenth t T). unfold ffloor. assert (Q1 : (fmul (q t) (speed_factor c (inject_Z (c_sub c))) == inject_Z (t * 1000))%Q).
    { unfold fmul. rewrite F. unfold q. rewrite <- inject_Z_mult. apply fl_int. lia. }
    assert (Q2 : (fdiv (fmul (q t) (speed_factor c (inject_Z (c_sub c)))) (q 10000) == fdiv (inject_Z (t * 1000)) 10000)%Q).
    { unfold fdiv. rewrite Q1. reflexivity. }
    rewrite (Qfloor_comp _ _ Q2). reflexivity. }
  erewrite qtrunc_compat.
  2:{ unfold fmul, fdiv. apply fl_compat. apply Qmult_comp; [reflexivity|]. apply fl_compat. apply Qdiv_comp; [exact E | reflexivity]. }
  apply hundredths. split; [apply Z.div_pos; lia|]. apply Z.div_le_upper_bound; lia.
Qed.

(** ** Cast and recast times *)

Lemma trunc2_mono x y : (x <= y)%Q -> truncate_to_digit2 x <= truncate_to_digit2 y.
Proof.
  intros L. unfold truncate_to_digit2. apply qtrunc_mono, fmul_mono_r; [vm_compute; discriminate|]. apply ffloor_mono, fdiv_mono; [reflexivity | exact L].
Qed.
Lemma scaled_time_mono st s s' ts base mult r r' :
  0 <= base -> (s <= s')%Q -> (0 <= mult)%Q -> (ps_trait_haste st <= 1)%Q ->
  scaled_time (with_speed st s) ts base mult = Ok r -> scaled_time (with_speed st s') ts base mult = Ok r' -> r' <= r.
Proof.
  unfold scaled_time. intros B L M T H H'. inv_bind H. inv_bind H'. injection H as <-. injection H' as <-.
  assert (A : a0 <= a).
  { destruct (affected_by_speed_stat ts); [|injection E as <-; injection E0 as <-; lia].
    cbn in E, E0. exact (faster_not_slower _ _ _ _ _ _ _ B L E E0). }
  destruct (affected_by_haste_buffs ts); [|exact A]. apply trunc2_mono. cbn. apply fmul_mono_l.
  - apply fmul_mono_l; [apply inject_Z_le, A | exact M].
  - apply fl_nonneg. lra.
Qed.
Lemma cast_not_slower st s s' ts m buffs r r' :
  (forall spec, ts = Some spec -> 0 <= base_cast_time spec) ->
  (s <= s')%Q -> (0 <= ef_haste_mult buffs)%Q -> (ps_trait_haste st <= 1)%Q ->
  get_cast_time (with_speed st s) ts m buffs = Ok r -> get_cast_time (with_speed st s') ts m buffs = Ok r' -> r' <= r.
Proof.
  unfold get_cast_time. intros B L M T. destruct (sm_ignore_cast_times m); [intros H H'; injection H as <-; injection H' as <-; lia|].
  destruct ts as [spec|]; [|discriminate]. cbn [of_option bind]. intros H H'. inv_bind H. inv_bind H'. injection H as <-. injection H' as <-.
  pose proof (scaled_time_mono _ _ _ _ _ _ _ _ (B spec eq_refl) L M T E E0). unfold reduce_time. destruct (ef_flat_cast buffs); lia.
Qed.
Lemma recast_not_slower st s s' spec buffs debuffs r r' :
  0 <= gcd_base_recast spec ->
  (s <= s')%Q -> (0 <= ef_haste_mult buffs)%Q -> (0 <= ef_haste_mult debuffs)%Q -> (ps_trait_haste st <= 1)%Q ->
  get_recast_time (with_speed st s) spec buffs debuffs = Ok r ->
  get_recast_time (with_speed st s') spec buffs debuffs = Ok r' -> r' <= r.
Proof.
  unfold get_recast_time. intros B L M M' T H H'. inv_bind H. inv_bind H'. injection H as <-. injection H' as <-.
  assert (A : a0 <= a).
  { destruct (affected_by_speed_stat spec); [|injection E as <-; injection E0 as <-; lia].
    cbn in E, E0. exact (faster_not_slower _ _ _ _ _ _ _ B L E E0). }
  assert (A2 : (if affected_by_haste_buffs spec then truncate_to_digit2 (fmul (fmul (fmul (q a0) (ef_haste_mult buffs)) (ef_haste_mult debuffs)) (fsub 1 (ps_trait_haste st))) else a0)
             <= (if affected_by_haste_buffs spec then truncate_to_digit2 (fmul (fmul (fmul (q a) (ef_haste_mult buffs)) (ef_haste_mult debuffs)) (fsub 1 (ps_trait_haste st))) else a)).
  { destruct (affected_by_haste_buffs spec); [|exact A]. apply trunc2_mono. cbn. apply fmul_mono_l; [|apply fl_nonneg; lra].
    apply fmul_mono_l; [|exact M']. apply fmul_mono_l; [apply inject_Z_le, A | exact M]. }
  cbv zeta in *. revert A2. destruct (gcd_base_recast spec =? GCD_RECAST_TIME);
    match goal with |- ?x <= ?y -> _ => generalize x y; intros ? ? A2; lia end.
Qed.

(** A cast time never goes below zero. *)
Lemma cast_nonneg st ts m buffs r : get_cast_time st ts m buffs = Ok r -> 0 <= r.
Proof.
  unfold get_cast_time. intros H. destruct (sm_ignore_cast_times m); [injection H as <-; lia|].
  destruct ts as [spec|]; [|discriminate]. cbn [of_option bind] in H. inv_bind H. injection H as <-.
  unfold reduce_time. destruct (ef_flat_cast buffs); lia.
Qed.

(** Beyond the bound the formula turns negative. *)
Lemma negative_time : get_time_using_speed_stat 2500 (q 20000) "7.0" 90 = Ok (-860).
Proof. vm_compute. reflexivity. Qed.
Lemma negative_exists :
  exists t s v l r, 0 <= t /\ get_time_using_speed_stat t s v l = Ok r /\ r < 0.
Proof. exists 2500, (q 20000), "7.0"%string, 90, (-860). split; [lia|]. split; [exact negative_time | lia]. Qed.
