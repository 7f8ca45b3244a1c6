(** * Outcomes of a hit in whole numbers (C85) *)

From Coq Require Import ZArith QArith Qround Qabs String List Bool Lia Lqa Setoid Morphisms.
From Verif Require Import Base BaseFacts Float FloatFacts Strings Types Lookup StatusEffect Stats DamageBuild Damage SpecHit HitOutcomes SpeedFacts
  SimFacts HitProps Fixtures ExactFloat SpecExact ExactFacts ExactDamage ExactProps ExactCase.
Import ListNotations.
Open Scope Z_scope.
Open Scope list_scope.
Local Opaque fl dec.

Lemma dec_100 : (dec 100 100 == 1)%Q.
Proof. vm_compute. reflexivity. Qed.
Lemma dec_quarter : (DH_DAMAGE_MULT_BONUS == inject_Z 1 * pow2 (-2))%Q.
Proof. vm_compute. reflexivity. Qed.
Lemma thousandths_fl n : (fmul (thousandths n) 1 == thousandths n)%Q.
Proof. unfold fmul, thousandths. rewrite Qmult_1_r. apply fl_idem. Qed.
Lemma thousandths_near n : near 1 (thousandths n) (n # 1000).
Proof. unfold thousandths. apply (near_fl 0); [lia|]. apply near_refl. Qed.
Lemma over z d : 0 < d -> (z # Z.to_pos d == inject_Z z / inject_Z d)%Q.
Proof. intros D. symmetry. apply Qdiv_inject, D. Qed.

(** Multiplying by a double that is not much too small never loses one. *)
Lemma safe_floor n p x y : (x == inject_Z n)%Q -> (y == dec p 100)%Q -> 0 <= p -> 0 <= n * p < 2 ^ 45 -> ((p # 100) * (1 - pow2 (-54)) < dec p 100)%Q ->
  Qfloor (fmul x y) = n * p / 100.
Proof.
  intros X Y P B S.
  assert (E : (inject_Z (n * p) / inject_Z 100 == inject_Z n * (p # 100))%Q).
  { rewrite (over p 100) by lia. rewrite inject_Z_mult. unfold Qdiv. ring. }
  assert (C : cut (n * p) 100 (Qfloor (fmul x y))).
  { apply (near_cut 2); [lia|lia|lia|]. rewrite E. unfold fmul. rewrite X, Y. apply (near_fl 1); [lia|]. apply near_mult_l, dec_near. }
  destruct C as [C|[M C]]; [exact C|]. exfalso. set (m := n * p / 100) in *.
  assert (NP : n * p = 100 * m) by (unfold m; pose proof (Z_div_mod_eq_full (n * p) 100); lia).
  assert (M0 : 0 <= m) by lia.
  assert (EM : (inject_Z n * (p # 100) == inject_Z m)%Q).
  { rewrite <- E, NP, inject_Z_mult. change (inject_Z 100) with 100%Q. field. }
  assert (F : (inject_Z m <= fmul x y)%Q).
  { unfold fmul. rewrite X, Y. destruct (Qlt_le_dec (inject_Z m) (inject_Z n * dec p 100)) as [G|G]; [apply fl_ge_int; [lia|lra]|].
    destruct (Z.eq_dec m 0) as [Z0|Z0].
    - apply fl_ge_int; [lia|]. destruct (Z.eq_dec n 0) as [N0|N0]; [subst n; rewrite Z0, Qmult_0_l; apply Qle_refl|].
      assert (p = 0) as -> by nia. rewrite Z0. rewrite Qmult_comm. assert (D : (dec 0 100 == 0)%Q) by reflexivity. rewrite D, Qmult_0_l. apply Qle_refl.
    - rewrite (fl_snap _ m); [apply Qle_refl|lia| |exact G]. rewrite <- EM. assert (N : (0 < inject_Z n)%Q) by (change 0%Q with (inject_Z 0); rewrite <- Zlt_Qlt; nia).
      rewrite <- Qmult_assoc. apply Qmult_lt_l; assumption. }
  apply Qfloor_resp_le in F. rewrite Qfloor_Z, C in F. lia.
Qed.
Lemma percent_exact x n p y : (x == inject_Z n)%Q -> (y == dec p 100)%Q -> 0 <= n -> 0 <= p <= 200 -> Z.abs (n * p) < 2 ^ 45 -> Z.abs n <= 2 ^ 50 ->
  percent n p (Qfloor (fmul x y)).
Proof.
  intros X Y N0 P B N. unfold percent. destruct (usual p) eqn:U.
  - apply safe_floor; [exact X|exact Y|lia|split; [nia|lia]|]. unfold usual in U. cbn [existsb] in U. rewrite !orb_true_iff, !Z.eqb_eq in U.
    destruct U as [->|[->|[->|[->|[->|[=]]]]]]; vm_compute; reflexivity.
  - apply (near_cut 2); [lia|lia|exact B|].
    assert (E : (inject_Z (n * p) / inject_Z 100 == inject_Z n * (p # 100))%Q).
    { rewrite (over p 100) by lia. rewrite inject_Z_mult. unfold Qdiv. ring. }
    rewrite E. unfold fmul. rewrite X, Y. apply (near_fl 1); [lia|]. apply near_mult_l, dec_near.
Qed.
Lemma over_mult a b c d : ~ (c == 0)%Q -> ~ (d == 0)%Q -> ((a * b) / (c * d) == (a / c) * (b / d))%Q.
Proof. intros C D. field. split; assumption. Qed.
Definition share (ps : list Z) : Q := fold_right (fun p x => (p # 100) * x)%Q 1%Q ps.
Lemma share_cons p ps : share (p :: ps) = ((p # 100) * share ps)%Q.
Proof. reflexivity. Qed.
Lemma share_app l l' : (share (l ++ l') == share l * share l')%Q.
Proof.
  induction l as [|p l IH]; [cbn [app]; change (share []) with 1%Q; rewrite Qmult_1_l; reflexivity|].
  cbn [app]. rewrite !share_cons, IH. apply Qmult_assoc.
Qed.
Lemma hundreds_pos n : 0 < 100 ^ Z.of_nat n.
Proof. apply Z.pow_pos_nonneg; lia. Qed.
Lemma share_product ps : (inject_Z (product ps) / inject_Z (100 ^ Z.of_nat (length ps)) == share ps)%Q.
Proof.
  induction ps as [|p ps IH]; [reflexivity|]. change (product (p :: ps)) with (p * product ps). rewrite share_cons. cbn [length].
  rewrite Nat2Z.inj_succ, Z.pow_succ_r by lia. rewrite !inject_Z_mult, <- IH, (over p 100) by lia.
  apply over_mult; [discriminate|]. intros E. pose proof (hundreds_pos (length ps)). change 0%Q with (inject_Z 0) in E. apply (proj1 (inject_Z_injective _ _)) in E. lia.
Qed.
Lemma times_near_gen ps : forall j x y, 0 <= j -> j + 3 * Z.of_nat (length ps) <= 100 -> near j x y ->
  near (j + 3 * Z.of_nat (length ps)) (fold_left (fun x p => fmul x (dec p 100)) ps x) (y * share ps).
Proof.
  induction ps as [|p ps IH]; intros j x y J B H; cbn [fold_left length].
  - change (share []) with 1%Q. rewrite Qmult_1_r. replace (j + 3 * Z.of_nat 0) with j by lia. exact H.
  - cbn [length] in B. assert (E : (y * share (p :: ps) == y * (p # 100) * share ps)%Q). { rewrite share_cons. ring. }
    rewrite E. replace (j + 3 * Z.of_nat (S (length ps))) with (j + 3 + 3 * Z.of_nat (length ps)) by lia. apply IH; [lia|lia|].
    replace (j + 3) with (j + 1 + 1 + 1) by lia. unfold fmul. apply near_fl; [lia|]. apply near_both; [lia|lia|exact H|apply dec_near].
Qed.
Lemma times_near ps : (length ps <= 8)%nat -> near (3 * Z.of_nat (length ps)) (times ps) (share ps).
Proof. intros L. rewrite <- (Qmult_1_l (share ps)). apply (times_near_gen ps 0); [lia|lia|apply near_refl]. Qed.
Lemma percents_exact x n ps ps' y : (x == inject_Z n)%Q -> (y == fmul (times ps) (times ps'))%Q -> (length (ps ++ ps') <= 8)%nat ->
  Z.abs (n * product (ps ++ ps')) < 2 ^ 45 -> Z.abs n <= 2 ^ 50 -> percents n (ps ++ ps') (Qfloor (fmul x y)).
Proof.
  intros X Y L B N. rewrite app_length in L.
  assert (C : (ps ++ ps')%list <> [] -> cut (n * product (ps ++ ps')) (100 ^ Z.of_nat (length (ps ++ ps'))) (Qfloor (fmul x y))).
  { intros _. apply (near_cut (3 * Z.of_nat (length ps) + 3 * Z.of_nat (length ps') + 3)); [lia|apply hundreds_pos|exact B|].
    assert (E : (inject_Z (n * product (ps ++ ps')) / inject_Z (100 ^ Z.of_nat (length (ps ++ ps'))) == inject_Z n * (share ps * share ps'))%Q).
    { rewrite <- share_app, <- share_product, inject_Z_mult. unfold Qdiv. ring. }
    rewrite E. replace (3 * Z.of_nat (length ps) + 3 * Z.of_nat (length ps') + 3) with (3 * Z.of_nat (length ps) + 3 * Z.of_nat (length ps') + 1 + 1 + 1) by lia.
    unfold fmul at 1. rewrite X, Y. apply near_fl; [lia|]. apply near_mult_l. unfold fmul. apply near_fl; [lia|].
    apply near_both; [lia|lia|apply times_near; lia|apply times_near; lia]. }
  unfold percents. destruct (ps ++ ps') eqn:E; [|apply C; discriminate]. apply app_eq_nil in E as (-> & ->).
  rewrite (Qfloor_comp _ (inject_Z n)); [apply Qfloor_Z|]. unfold fmul at 1. rewrite X, Y. change (fmul (times []) (times [])) with (fl (1 * 1)).
  rewrite Qmult_1_l, fl_1, Qmult_1_r. apply fl_int. lia.
Qed.
Lemma floor_comp_eq x y : (x == y)%Q -> ffloor x = ffloor y.
Proof. intros E. unfold ffloor. rewrite (Qfloor_comp _ _ E). reflexivity. Qed.
Lemma percent_bound n p k A : percent n p k -> Z.abs n <= A -> 0 <= p <= 200 -> Z.abs k <= 2 * A + 1.
Proof.
  unfold percent. intros C N P. assert (C' : cut (n * p) 100 k) by (destruct (usual p); [left; exact C|exact C]). clear C. rename C' into C.
  apply (cut_abs (n * p) 100); [lia|lia| |exact C]. rewrite Z.abs_mul. rewrite (Z.abs_eq p) by lia. nia.
Qed.
(** One range's end from its roll. *)
Lemma after_roll_exact r n bonus trait ps ps' crit dh x : (x == inject_Z n)%Q -> 0 <= n <= 1050000 ->
  (r_crit_bonus r == thousandths bonus)%Q -> 0 <= bonus <= 3000 -> (r_trait r == dec trait 100)%Q -> 0 <= trait <= 200 ->
  (r_mult r == fmul (times ps) (times ps'))%Q -> (length (ps ++ ps') <= 8)%nat -> Z.abs (product (ps ++ ps')) <= 3000000 ->
  exists out, outcome_of bonus trait (ps ++ ps') crit dh n out /\ after_roll r x crit dh = inject_Z out.
Proof.
  intros X N CB BB TR TB MU L P. unfold after_roll.
  set (c := ffloor (fmul x (fmul (r_crit_bonus r) (qbool crit)))).
  assert (C : exists k, c = inject_Z k /\ 0 <= k + n /\ k <= 3 * n /\ (if crit then cut (n * bonus) 1000 k else k = 0)).
  { unfold c. destruct crit; cbn [qbool].
    - assert (K : cut (n * bonus) 1000 (Qfloor (fmul x (fmul (r_crit_bonus r) 1)))).
      { apply (near_cut 2); [lia|lia|apply Z.le_lt_trans with (1050000 * 3000); [rewrite Z.abs_eq; nia|lia]|].
        assert (E : (inject_Z (n * bonus) / inject_Z 1000 == inject_Z n * (bonus # 1000))%Q).
        { rewrite (over bonus 1000) by lia. rewrite inject_Z_mult. unfold Qdiv. ring. }
        rewrite E, X, CB, thousandths_fl. unfold fmul. apply (near_fl 1); [lia|]. apply near_mult_l, thousandths_near. }
      eexists. split; [reflexivity|]. split; [|split; [|exact K]].
      + destruct (Z.eq_dec n 0) as [N0|N0].
        * rewrite (Qfloor_comp _ (inject_Z 0)); [rewrite Qfloor_Z; lia|]. unfold fmul at 1. rewrite X, N0, Qmult_0_l. apply fl_0.
        * assert (0 <= n * bonus / 1000) by (apply Z.div_pos; nia). unfold cut in K. lia.
      + pose proof (cut_le (n * bonus) (n * 3000) 1000 _ ltac:(lia) ltac:(nia) K) as U.
        replace (n * 3000) with (3 * n * 1000) in U by lia. rewrite Z.div_mul in U by lia. exact U.
    - exists 0. split; [|repeat split; lia]. apply ffloor_eq. unfold fmul. rewrite Qmult_0_r, fl_0, Qmult_0_r. apply fl_0. }
  destruct C as (k & -> & K0 & K1 & KC).
  assert (X1 : (fadd x (inject_Z k) == inject_Z (n + k))%Q). { unfold fadd. rewrite X. apply fadd_int. lia. }
  set (y := if dh then (n + k) + (n + k) / 4 else n + k).
  assert (X2 : (fadd (fadd x (inject_Z k)) (ffloor (fmul (fadd x (inject_Z k)) (fmul DH_DAMAGE_MULT_BONUS (qbool dh)))) == inject_Z y)%Q).
  { assert (F : ffloor (fmul (fadd x (inject_Z k)) (fmul DH_DAMAGE_MULT_BONUS (qbool dh))) = inject_Z (if dh then (n + k) / 4 else 0)).
    { destruct dh; cbn [qbool].
      - assert (E : (fmul (fadd x (inject_Z k)) (fmul DH_DAMAGE_MULT_BONUS 1) == inject_Z (n + k) / inject_Z 4)%Q).
        { unfold fmul. rewrite X1, Qmult_1_r. assert (Q4 : (fl DH_DAMAGE_MULT_BONUS == 1 # 4)%Q) by (vm_compute; reflexivity). rewrite Q4.
          rewrite (fl_exact (n + k) (-2)); [unfold Qdiv; reflexivity|reflexivity|lia]. }
        unfold ffloor. rewrite (Qfloor_comp _ _ E), floor_quot by lia. reflexivity.
      - apply ffloor_eq. unfold fmul. rewrite Qmult_0_r, fl_0, Qmult_0_r. apply fl_0. }
    rewrite F. unfold fadd at 1. rewrite X1. unfold y. assert (Z.abs ((n + k) / 4) <= 2000000) by (apply abs_div; lia).
    destruct dh; [apply fadd_int; lia|]. replace (n + k) with (n + k + 0) at 2 by lia. apply fadd_int. lia. }
  assert (Y0 : 0 <= y). { unfold y. assert (0 <= (n + k) / 4) by (apply Z.div_pos; lia). destruct dh; lia. }
  assert (YB : Z.abs y <= 5250001).
  { unfold y. destruct dh; [|lia]. assert (-1 <= (n + k) / 4) by (apply Z.div_le_lower_bound; lia). assert ((n + k) / 4 <= 1050000) by (apply Z.div_le_upper_bound; lia). lia. }
  set (t2 := fadd (fadd x (inject_Z k)) _) in *. clearbody t2.
  assert (P3 : percent y trait (Qfloor (fmul t2 (r_trait r)))).
  { apply percent_exact; [exact X2|exact TR|exact Y0|exact TB| |lia]. rewrite Z.abs_mul, (Z.abs_eq trait) by lia. apply Z.le_lt_trans with (5250001 * 200); [nia|lia]. }
  unfold ffloor. set (z := Qfloor (fmul t2 (r_trait r))) in *.
  pose proof (percent_bound _ _ _ _ P3 YB TB) as ZB.
  assert (P4 : percents z (ps ++ ps') (Qfloor (fmul (inject_Z z) (r_mult r)))).
  { apply percents_exact; [reflexivity|exact MU|exact L| |lia]. rewrite Z.abs_mul. apply Z.le_lt_trans with (10500003 * 3000000); [nia|lia]. }
  eexists. split; [|reflexivity]. exists (n + k), y, z. split; [|split; [reflexivity|split; assumption]].
  destruct crit; [eauto|lia].
Qed.

(** ** Rows *)

Lemma near_sum j a x b y : 0 <= j -> (0 <= x)%Q -> (0 <= y)%Q -> near j a x -> near j b y -> near j (a + b) (x + y).
Proof.
  unfold near. intros J X Y H K. setoid_replace (a + b - (x + y))%Q with ((a - x) + (b - y))%Q by ring.
  eapply Qle_trans; [apply Qabs_triangle|]. rewrite (Qabs_pos (x + y)) by lra. rewrite (Qabs_pos x) in H by exact X. rewrite (Qabs_pos y) in K by exact Y.
  rewrite Qmult_plus_distr_r. lra.
Qed.
Lemma near_weaken j k a x : j <= k -> near j a x -> near k a x.
Proof.
  unfold near. intros J H. eapply Qle_trans; [exact H|]. apply Qmult_le_compat_r; [|apply Qabs_nonneg].
  apply Qmult_le_compat_r; [rewrite <- Zle_Qle; exact J|vm_compute; discriminate].
Qed.
(** The factor of a roll. *)
Lemma factor_near u0 : (0 <= u0 < 1)%Q ->
  near 4 (fadd (fsub 1 (fdiv (dec 1 10) (q 2))) (fmul (dec 1 10) u0)) ((95 # 100) + (1 # 10) * u0).
Proof.
  intros [U0 U1]. destruct consts_95 as (E & _). unfold fadd. rewrite E. apply (near_fl 3); [lia|]. apply near_sum; [lia|lra|lra| |].
  - apply (near_weaken 1); [lia|apply dec_near].
  - apply (near_weaken 2); [lia|]. unfold fmul. apply (near_fl 1); [lia|]. apply near_mult, dec_near.
Qed.
Lemma roll_exact x b u0 : (x == inject_Z b)%Q -> 1 <= b <= 1000000 -> (0 <= u0 < 1)%Q ->
  let n := Qfloor (fmul x (fadd (fsub 1 (fdiv (dec 1 10) (q 2))) (fmul (dec 1 10) u0))) in
  let y := (inject_Z b * ((95 # 100) + (1 # 10) * u0))%Q in
  (y - 1 - (1 # 1000000) < inject_Z n <= y + (1 # 1000000))%Q /\ 0 <= n <= 1050000.
Proof.
  intros X B U n y. set (f := fadd _ _) in n.
  assert (N : near 5 (fmul x f) y).
  { unfold fmul, y. rewrite X. apply (near_fl 4); [lia|]. apply near_mult_l, factor_near, U. }
  assert (B0 : (1 <= inject_Z b)%Q) by (change 1%Q with (inject_Z 1); rewrite <- Zle_Qle; lia).
  assert (B1 : (inject_Z b <= 1000000)%Q) by (change 1000000%Q with (inject_Z 1000000); rewrite <- Zle_Qle; lia).
  assert (Y : ((95 # 100) <= y <= 1050000)%Q). { unfold y. destruct U. split; nra. }
  unfold near in N. rewrite (Qabs_pos y) in N by lra.
  assert (S : (inject_Z 5 * ulp * y <= 1 # 1000000)%Q).
  { apply Qle_trans with (inject_Z 5 * ulp * 1050000)%Q; [|vm_compute; discriminate]. rewrite !(Qmult_comm (inject_Z 5 * ulp)).
    apply Qmult_le_compat_r; [lra|vm_compute; discriminate]. }
  apply Qabs_Qle_condition in N. pose proof (Qfloor_le (fmul x f)) as F1. pose proof (Qlt_floor (fmul x f)) as F2. fold n in F1, F2.
  rewrite inject_Z_plus in F2. change (inject_Z 1) with 1%Q in F2.
  assert (Q1 : (y - 1 - (1 # 1000000) < inject_Z n <= y + (1 # 1000000))%Q) by lra. split; [exact Q1|].
  assert (L : (inject_Z (-1) < inject_Z n)%Q) by (change (inject_Z (-1)) with (-1)%Q; lra).
  assert (R : (inject_Z n < inject_Z 1050001)%Q) by (change (inject_Z 1050001) with 1050001%Q; lra).
  rewrite <- Zlt_Qlt in L, R. lia.
Qed.
Lemma init_exact k x b : k = 95 \/ k = 105 -> (x == inject_Z b)%Q -> 1 <= b <= 1000000 ->
  Qfloor (fmul (dec k 100) x) = b * k / 100 /\ 0 <= b * k / 100 <= 1050000.
Proof.
  intros K X B. split; [|split; [apply Z.div_pos|apply Z.div_le_upper_bound]; destruct K; subst k; lia].
  rewrite (Qfloor_comp _ (fmul x (dec k 100))) by (unfold fmul; rewrite Qmult_comm; reflexivity).
  apply safe_floor; [exact X|reflexivity|lia|destruct K; subst k; lia|]. destruct K; subst k; vm_compute; reflexivity.
Qed.

Lemma steps_small t h l : table_at l = Some t -> sensible h -> 0 <= crit_steps t h + 400 <= 3000.
Proof.
  intros T S. destruct S as (_ & _ & _ & _ & _ & C & _). unfold fits in C. unfold table_at in T.
  assert (L : -50 <= crit_steps t h); [|assert (U : crit_steps t h <= 2500)]; [| |lia]; unfold crit_steps;
    destruct (l =? 90); [|destruct (l =? 100)| |destruct (l =? 100)]; try discriminate; injection T as <-; cbn [base_sub base_div];
    (apply Z.div_le_lower_bound || apply Z.div_le_upper_bound); lia.
Qed.
Lemma row_exact h st t md r delay x row : stats_of (gear_of h) = Ok st -> on_roster h t md r delay -> sensible h ->
  row_of st x = Ok row -> forall b trait ps ps', plain_hit st r x b trait ps ps' ->
  forall y n crit dh, (y == inject_Z n)%Q -> 0 <= n <= 1050000 ->
  exists out, outcome_of (crit_steps t h + 400) trait (ps ++ ps') crit dh n out /\ after_roll row y crit dh = inject_Z out.
Proof.
  intros G R S H b trait ps ps' (d & z & Ed & Ez & _ & _ & Et & Tb & M1 & M2 & L & P) y n crit dh Y N.
  destruct (row_of_ok _ _ _ H) as (d' & b' & Ed' & _ & Er & _ & Em & Er'). rewrite Ed in Ed'. injection Ed' as <-.
  apply rates_ok in Er as (_ & _ & EB). destruct (sheet_derived h st t md r delay G R S) as (_ & CB & _ & TR & _).
  apply after_roll_exact; [exact Y|exact N|rewrite EB; exact CB| | |exact Tb| |exact L|exact P].
  - destruct R as (_ & T & _). apply (steps_small t h _ T S).
  - rewrite Er'. destruct (trait_damage_mult_override d); [exact Et|]. subst trait. exact TR.
  - rewrite Em. unfold compute_damage_mult, fmul. rewrite M1, M2. reflexivity.
Qed.
Lemma plain_base st r x b trait ps ps' row : plain_hit st r x b trait ps ps' -> row_of st x = Ok row -> (r_base row == inject_Z b)%Q /\ 1 <= b <= 1000000.
Proof.
  intros (d & z & _ & Ez & Eb & B & _) H. destruct (row_of_ok _ _ _ H) as (d' & b' & _ & Ez' & _ & E & _).
  rewrite Ez in Ez'. injection Ez' as <-. rewrite E. split; assumption.
Qed.

Lemma range_exact h st t md r delay l sim u rs i x os b trait ps ps' :
  stats_of (gear_of h) = Ok st -> on_roster h t md r delay -> sensible h -> fair u ->
  ds_init st l = Ok sim -> damage_ranges (ds_tracker sim) u = Ok rs ->
  nth_error (ds_instances sim) i = Some x -> nth_error rs i = Some os -> plain_hit st r x b trait ps ps' ->
  forall o, In o os -> exists crit dh lo hi, o_label o = label_of crit dh /\ (o_low o == q lo)%Q /\ (o_high o == q hi)%Q
    /\ outcome_of (crit_steps t h + 400) trait (ps ++ ps') crit dh (b * 95 / 100) lo
    /\ outcome_of (crit_steps t h + 400) trait (ps ++ ps') crit dh (b * 105 / 100) hi.
Proof.
  intros G R S F H D E Eo P o I. destruct (outcomes_at _ _ _ _ _ _ _ _ H D E Eo) as (row & Hr & ->).
  destruct (plain_base _ _ _ _ _ _ _ _ P Hr) as (B & BB).
  destruct (range_ok row (u i) ltac:(intros k _; apply F) o I) as (crit & dh & EL & E1 & E2).
  destruct (init_exact 95 _ b ltac:(lia) B BB) as (I1 & N1). destruct (init_exact 105 _ b ltac:(lia) B BB) as (I2 & N2).
  destruct (row_exact _ _ _ _ _ _ _ _ G R S Hr _ _ _ _ P (low_init row) (b * 95 / 100) crit dh) as (lo & O1 & A1);
    [unfold low_init, ffloor; rewrite I1; reflexivity|exact N1|].
  destruct (row_exact _ _ _ _ _ _ _ _ G R S Hr _ _ _ _ P (high_init row) (b * 105 / 100) crit dh) as (hi & O2 & A2);
    [unfold high_init, ffloor; rewrite I2; reflexivity|exact N2|].
  exists crit, dh, lo, hi. split; [exact EL|]. rewrite E1, E2, A1, A2. split; [reflexivity|]. split; [reflexivity|]. split; assumption.
Qed.
Lemma sample_exact h st t md r delay l sim v n m i x cells j d crit dh b trait ps ps' :
  stats_of (gear_of h) = Ok st -> on_roster h t md r delay -> sensible h -> drawn (v i j) ->
  ds_init st l = Ok sim -> compute_damage (ds_tracker sim) n v = Ok m ->
  nth_error (ds_instances sim) i = Some x -> nth_error m i = Some cells -> nth_error cells j = Some (d, crit, dh) ->
  plain_hit st r x b trait ps ps' ->
  exists roll out, let y := (inject_Z b * ((95 # 100) + (1 # 10) * fst (fst (v i j))))%Q in
    (y - 1 - (1 # 1000000) < inject_Z roll <= y + (1 # 1000000))%Q
    /\ outcome_of (crit_steps t h + 400) trait (ps ++ ps') crit dh roll out /\ (d == q out)%Q.
Proof.
  intros G R S V H K E Ec Ej P. destruct (sim_row_at st l sim i x H E) as (row & Er & Hr).
  destruct (cells_at _ _ _ _ K) as (_ & C). rewrite (C i row Er) in Ec. injection Ec as <-. rewrite nth_error_map in Ej.
  destruct (nth_error (seq 0 n) j) as [k|] eqn:SQ; [|discriminate]. assert (k = j) as ->.
  { assert (L : (j < List.length (seq 0 n))%nat) by (apply nth_error_Some; congruence). rewrite seq_length in L.
    rewrite (nth_error_nth' _ 0%nat) in SQ by (rewrite seq_length; exact L). rewrite seq_nth in SQ by exact L. injection SQ as <-. reflexivity. }
  injection Ej as Ej. unfold sample_cell, get_damage in Ej. destruct (v i j) as [[u0 u1] u2] eqn:EV. cbn [fst snd].
  destruct V as (V0 & _). destruct (plain_base _ _ _ _ _ _ _ _ P Hr) as (B & BB). destruct (roll_exact _ _ u0 B BB V0) as (RB & RN).
  injection Ej as Ed Ecr Edh. rewrite Ecr in Ed. rewrite Edh in Ed.
  match type of RN with 0 <= ?x <= _ => set (roll := x) in * end.
  destruct (row_exact _ _ _ _ _ _ _ _ G R S Hr _ _ _ _ P (inject_Z roll) roll crit dh ltac:(reflexivity) RN) as (out & O & A).
  exists roll, out. split; [exact RB|]. split; [exact O|]. rewrite <- Ed. unfold after_roll in A. unfold q. rewrite <- A. unfold ffloor, roll. reflexivity.
Qed.
