(** * Damage in whole numbers: facts (C83, C84) *)

From Coq Require Import ZArith QArith Qround Qabs List String Bool Lia Lqa Setoid Morphisms.
From Verif Require Import Base BaseFacts Float FloatFacts Strings Types Lookup StatusEffect Stats DamageBuild Damage SpecHit SpeedFacts ExactFloat SpecExact SpecGame.
Import ListNotations.
Open Scope string_scope.
Open Scope Z_scope.
Local Opaque fl dec.

(** ** Bounds *)
Lemma abs_mul a b A B : Z.abs a <= A -> Z.abs b <= B -> Z.abs (a * b) <= A * B.
Proof. intros H K. rewrite Z.abs_mul. apply Z.mul_le_mono_nonneg; lia. Qed.
Lemma abs_div a d A : 0 < d -> 0 <= A -> Z.abs a <= A * d -> Z.abs (a / d) <= A.
Proof.
  intros D P H. apply Z.abs_le. split; [apply Z.div_le_lower_bound; nia | apply Z.div_le_upper_bound; nia].
Qed.

(** ** Cutting *)
Lemma cut_whole n d k : whole n d k -> cut n d k.
Proof. left. assumption. Qed.
Lemma near_cut j n d y : (0 <= j <= 100)%Z -> 0 < d -> Z.abs n < 2 ^ 45 -> near j y (inject_Z n / inject_Z d) -> cut n d (Qfloor y).
Proof. intros J D B H. apply floor_near; [exact D|]. apply (near_close j); assumption. Qed.
Lemma cut_le n n' d k : 0 < d -> n <= n' -> cut n d k -> k <= n' / d.
Proof. intros D L [->|[_ ->]]; pose proof (Z.div_le_mono n n' d D L); lia. Qed.
Lemma cut_abs n d k A : 0 < d -> 0 <= A -> Z.abs n <= A * d -> cut n d k -> Z.abs k <= A + 1.
Proof. intros D P H [->|[_ ->]]; pose proof (abs_div n d A D P H); lia. Qed.

(** ** Tables *)
Definition same_table (c : consts) (t : table) : Prop :=
  c_main c = base_main t /\ c_sub c = base_sub t /\ c_div c = base_div t /\ c_fap c = ap_step t /\ c_fap_tank c = ap_step_tank t
  /\ c_ten c = ten_step t /\ c_dh c = 550 /\ c_speed c = 130 /\ c_crit0 c = 200 /\ c_crit1 c = 50 /\ c_crit2 c = 400 /\ c_det c = 140.
Lemma table_consts v l t : v <> "test" -> table_at l = Some t -> exists c, get_consts v l = Ok c /\ same_table c t.
Proof.
  intros V T. unfold get_consts. destruct (String.eqb_spec v "test"); [contradiction|]. unfold table_at in T.
  destruct (l =? 90); [|destruct (l =? 100); [|discriminate]]; injection T as <-; eexists; (split; [reflexivity|]); repeat split.
Qed.
Lemma consts_table v l c : v <> "test" -> get_consts v l = Ok c -> exists t, table_at l = Some t /\ same_table c t.
Proof.
  intros V T. unfold get_consts in T. destruct (String.eqb_spec v "test"); [contradiction|]. unfold table_at.
  destruct (l =? 90); [|destruct (l =? 100); [|discriminate]]; injection T as <-; eexists; (split; [reflexivity|]); repeat split.
Qed.
Lemma table_sane l t : table_at l = Some t ->
  390 <= base_main t <= 440 /\ 400 <= base_sub t <= 420 /\ 1900 <= base_div t <= 2780 /\ 195 <= ap_step t <= 237
  /\ 156 <= ap_step_tank t <= 190 /\ 100 <= ten_step t <= 112.
Proof. unfold table_at. destruct (l =? 90); [|destruct (l =? 100); [|discriminate]]; intros [= <-]; cbn; lia. Qed.

(** ** Jobs *)
Lemma roster_facts v j md r u : v <> "test" -> In (j, (md, r, u)) roster ->
  job_mod_of v j = Ok md /\ is_tank v j = is_tank_role r /\ is_healer v j || is_caster v j = is_magic r
  /\ uses_sks v j = negb (is_magic r) /\ (trait_damage_mult_of v j == dec (trait_percent r) 100)%Q
  /\ dget j weapon_delays = Some (dec u 100) /\ 0 <= md <= 115 /\ 0 <= u <= 400.
Proof.
  intros V I. assert (T : is_test v = false) by (unfold is_test; destruct (String.eqb_spec v "test"); [contradiction|reflexivity]).
  unfold job_mod_of, is_tank, is_healer, is_caster, uses_sks, trait_damage_mult_of. rewrite T.
  assert (O : (1 == dec 100 100)%Q) by (vm_compute; reflexivity).
  cbn [roster In] in I.
  repeat (destruct I as [I|I];
    [injection I as <- <- <- <-; (split; [reflexivity|]); (split; [reflexivity|]); (split; [reflexivity|]); (split; [reflexivity|]);
     (split; [first [reflexivity | exact O]|]); (split; [reflexivity|lia])|]).
  destruct I.
Qed.
Lemma roster_complete v j md : v <> "test" -> job_mod_of v j = Ok md -> exists r u, In (j, (md, r, u)) roster.
Proof.
  intros V H. assert (T : is_test v = false) by (unfold is_test; destruct (String.eqb_spec v "test"); [contradiction|reflexivity]).
  unfold job_mod_of in H. rewrite T in H. unfold job_mods in H. cbn [dget] in H.
  repeat (match type of H with context [if String.eqb ?a ?b then _ else _] => destruct (String.eqb_spec a b) as [->|_] end;
    [injection H as <-; do 2 eexists; cbn; intuition reflexivity|]).
  cbn in H. discriminate.
Qed.

(** ** Stat functions *)
Lemma scaled_int k x s d : 0 < d -> Z.abs (x - s) <= 2 ^ 30 -> Z.abs k <= 2 ^ 20 ->
  ffloor (fdiv (fmul (q k) (fsub (q x) (q s))) (q d)) = inject_Z (k * (x - s) / d).
Proof.
  intros D X K. pose proof (abs_mul k (x - s) _ _ K X) as M. apply ffloor_div; [|exact D|lia].
  unfold q. rewrite fsub_int by lia. apply fmul_int. lia.
Qed.
Lemma scaled_bound k x s d A : 0 < d -> 0 <= A -> Z.abs (k * (x - s)) <= A * d -> Z.abs (k * (x - s) / d) <= A.
Proof. intros. apply abs_div; assumption. Qed.

Section Stat.
  Variables (c : consts) (t : table) (l : Z).
  Hypothesis T : table_at l = Some t.
  Hypothesis S : same_table c t.
  Ltac open := destruct (table_sane l t T) as (S1 & S2 & S3 & S4 & S5 & S6);
    destruct S as (E1 & E2 & E3 & E4 & E5 & E6 & E7 & E8 & E9 & E10 & E11 & E12).

  Lemma crit_exact x : fits x ->
    crit_points c (q x) = inject_Z (200 * (x - base_sub t) / base_div t).
  Proof. unfold fits. intros F. open. unfold crit_points. rewrite E9, E2, E3. apply scaled_int; lia. Qed.
  Lemma rate_exact n k : Z.abs n <= 2 ^ 20 -> 0 <= k <= 1000 -> (fdiv (fadd (inject_Z n) (q k)) (q 1000) == thousandths (n + k))%Q.
  Proof.
    intros N K. unfold thousandths, q. rewrite fadd_int by lia. unfold fdiv. apply fl_compat. apply (Qdiv_inject (n + k) 1000). lia.
  Qed.
  Lemma dh_exact x : fits x -> (dh_rate_of c (q x) == thousandths (550 * (x - base_sub t) / base_div t))%Q.
  Proof.
    unfold fits. intros F. open. unfold dh_rate_of. rewrite E7, E2, E3, scaled_int by lia. unfold thousandths, fdiv.
    apply fl_compat. apply (Qdiv_inject _ 1000). lia.
  Qed.
  Lemma det_exact x : fits x -> (fDet c (q x) == inject_Z (1000 + 140 * (x - base_main t) / base_div t))%Q
    /\ Z.abs (1000 + 140 * (x - base_main t) / base_div t) <= 2500.
  Proof.
    unfold fits. intros F. open. unfold fDet. rewrite E12, E1, E3, scaled_int by lia.
    pose proof (abs_div (140 * (x - base_main t)) (base_div t) 1500 ltac:(lia) ltac:(lia) ltac:(lia)).
    unfold q. rewrite fadd_int by lia. split; [rewrite Z.add_comm; reflexivity | lia].
  Qed.
  Lemma detdh_exact x y : fits x -> fits y ->
    (fDetDH c (q x) (q y) == inject_Z (1000 + 140 * (x - base_main t) / base_div t + 140 * (y - base_sub t) / base_div t))%Q
    /\ Z.abs (1000 + 140 * (x - base_main t) / base_div t + 140 * (y - base_sub t) / base_div t) <= 4000.
  Proof.
    intros F G. destruct (det_exact x F) as (D & B). unfold fits in *. open. unfold fDetDH. rewrite D, E12, E2, E3, scaled_int by lia.
    pose proof (abs_div (140 * (y - base_sub t)) (base_div t) 1500 ltac:(lia) ltac:(lia) ltac:(lia)).
    rewrite fadd_int by lia. split; [reflexivity | lia].
  Qed.
  Lemma tnc_exact x : fits x -> (fTnc c (q x) == inject_Z (1000 + ten_step t * (x - base_sub t) / base_div t))%Q
    /\ Z.abs (1000 + ten_step t * (x - base_sub t) / base_div t) <= 2100.
  Proof.
    unfold fits. intros F. open. unfold fTnc. rewrite E6, E2, E3, scaled_int by lia.
    assert (Z.abs (ten_step t * (x - base_sub t) / base_div t) <= 1100).
    { clear - T F. unfold table_at in T. destruct (l =? 90); [|destruct (l =? 100); [|discriminate]]; injection T as <-; cbn [ten_step base_sub base_div]; apply abs_div; lia. }
    unfold q. rewrite fadd_int by lia. split; [rewrite Z.add_comm; reflexivity | lia].
  Qed.
  Lemma spd_exact x : fits x -> (fSpd c (q x) == inject_Z (1000 + 130 * (x - base_sub t) / base_div t))%Q
    /\ Z.abs (1000 + 130 * (x - base_sub t) / base_div t) <= 2400.
  Proof.
    unfold fits. intros F. open. unfold fSpd. rewrite E8, E2, E3.
    pose proof (abs_div (130 * (x - base_sub t)) (base_div t) 1400 ltac:(lia) ltac:(lia) ltac:(lia)).
    split; [|lia]. unfold ffloor. apply inject_Z_injective. rewrite Z.add_comm.
    rewrite <- (floor_fadd (130 * (x - base_sub t)) (base_div t) 1000) by lia. apply Qfloor_comp. unfold q.
    rewrite fsub_int, fmul_int by lia. reflexivity.
  Qed.
  Lemma wd_exact w m : 0 <= w <= 500 -> 0 <= m <= 200 -> (fWD c (q w) (q m) == inject_Z (base_main t * m / 1000 + w))%Q
    /\ 0 <= base_main t * m / 1000 + w <= 600.
  Proof.
    intros W M. open. unfold fWD. rewrite E1.
    assert (0 <= base_main t * m / 1000 <= 88).
    { split; [apply Z.div_pos; nia|]. apply Z.div_le_upper_bound; nia. }
    split; [|lia]. unfold ffloor. apply inject_Z_injective.
    rewrite <- (floor_fadd (base_main t * m) 1000 w) by nia. apply Qfloor_comp. unfold q. rewrite fmul_int by nia. reflexivity.
  Qed.
  Lemma ap_exact x y k : (x == inject_Z y)%Q -> Z.abs y <= 30000 ->
    (fAP c x k == inject_Z (100 + (if k then ap_step_tank t else ap_step t) * (y - base_main t) / base_main t))%Q.
  Proof.
    intros X Y. open. unfold fAP. rewrite X, E1, E4, E5.
    replace (q (if k then ap_step_tank t else ap_step t)) with (q (if k then ap_step_tank t else ap_step t)) by reflexivity.
    set (s := if k then _ else _). assert (SB : 0 <= s <= 240) by (unfold s; destruct k; lia).
    fold (q y). rewrite scaled_int by lia.
    pose proof (abs_div (s * (y - base_main t)) (base_main t) 30000 ltac:(lia) ltac:(lia) ltac:(nia)).
    unfold q. rewrite fadd_int by lia. rewrite Z.add_comm. reflexivity.
  Qed.
End Stat.

(** ** Main stat *)
Definition bonus (n : Z) : Q := fadd 1 (fmul (dec 1 100) (q n)).
Lemma bonus_close n : 0 <= n <= 5 -> ((100 + n # 100) <= bonus n /\ bonus n <= (100 + n # 100) + (1 # 2 ^ 50))%Q.
Proof.
  intros N. assert (C : n = 0 \/ n = 1 \/ n = 2 \/ n = 3 \/ n = 4 \/ n = 5) by lia.
  destruct C as [->|[->|[->|[->|[->| ->]]]]]; split; vm_compute; discriminate.
Qed.
Lemma party_exact x m n : (x == inject_Z m)%Q -> 0 <= m <= 30000 -> 0 <= n <= 5 ->
  ffloor (fmul x (bonus n)) = inject_Z (m * (100 + n) / 100) /\ 0 <= m * (100 + n) / 100 <= 32000.
Proof.
  intros X M N. destruct (bonus_close n N) as (B1 & B2).
  split; [|split; [apply Z.div_pos; nia | apply Z.div_le_upper_bound; nia]].
  assert (M0 : (0 <= inject_Z m)%Q) by (apply (inject_Z_le 0); lia).
  assert (M1 : (inject_Z m <= 30000)%Q) by (apply (inject_Z_le m 30000); lia).
  assert (E : (inject_Z (m * (100 + n)) / inject_Z 100 == inject_Z m * (100 + n # 100))%Q).
  { rewrite inject_Z_mult. assert (W : (100 + n # 100 == inject_Z (100 + n) / inject_Z 100)%Q) by (symmetry; apply (Qdiv_inject (100 + n) 100); lia).
    rewrite W. unfold Qdiv. ring. }
  assert (BN : (100 + n # 100 <= 105 # 100)%Q) by (unfold Qle; cbn [Qnum Qden]; lia).
  assert (B0 : (0 <= 100 + n # 100)%Q) by (unfold Qle; cbn [Qnum Qden]; lia).
  set (y := fmul x (bonus n)). assert (Y : (y == fl (inject_Z m * bonus n))%Q) by (unfold y, fmul; rewrite X; reflexivity).
  assert (L : (inject_Z (m * (100 + n) / 100) <= y)%Q).
  { rewrite Y. apply fl_ge_int.
    - pose proof (abs_div (m * (100 + n)) 100 40000 ltac:(lia) ltac:(lia) ltac:(nia)). lia.
    - rewrite <- (floor_quot (m * (100 + n)) 100) by lia. eapply Qle_trans; [apply Qfloor_le|]. rewrite E.
      rewrite (Qmult_comm (inject_Z m)), (Qmult_comm (inject_Z m)). apply Qmult_le_compat_r; assumption. }
  assert (C : cut (m * (100 + n)) 100 (Qfloor y)).
  { apply floor_near; [lia|]. rewrite E. pose proof (fl_error (inject_Z m * bonus n)) as F. rewrite <- Y in F.
    set (v := (inject_Z m * bonus n)%Q) in *. set (w := (inject_Z m * (100 + n # 100))%Q) in *.
    assert (V1 : (w <= v)%Q) by (unfold v, w; nra).
    assert (V2 : (v <= w + 30000 * (1 # 2 ^ 50))%Q) by (unfold v, w; nra).
    assert (V0 : (0 <= w <= 40000)%Q) by (unfold w; split; nra).
    change (30000 * (1 # 2 ^ 50))%Q with (30000 # 1125899906842624)%Q in V2.
    change (pow2 (-53)) with (1 # 9007199254740992)%Q in F. rewrite (Qabs_pos v) in F by lra.
    apply Qabs_Qle_condition in F. apply Qabs_Qlt_condition. change (1 / inject_Z 100)%Q with (1 # 100)%Q. split; nra. }
  unfold ffloor. f_equal. destruct C as [C|[_ C]]; [exact C|]. exfalso.
  assert (Qfloor y >= m * (100 + n) / 100); [|lia].
  rewrite <- (Qfloor_Z (m * (100 + n) / 100)). apply Z.le_ge, Qfloor_resp_le, L.
Qed.
Lemma buffed_exact x m e a a' : (x == inject_Z m)%Q -> Z.abs m <= 100000 -> Z.abs a <= 100000 -> Z.abs a' <= 100000 ->
  adds_points (fst e) a -> adds_points (snd e) a' ->
  (buffed_main_stat x e == inject_Z (m + (a + a')))%Q.
Proof.
  intros X M A A' (P1 & P2 & _) (R1 & R2 & _). unfold buffed_main_stat. rewrite P1, P2, R1, R2, X.
  assert (O : forall z, Z.abs z <= 100000 -> (fmul (inject_Z z) 1 == inject_Z z)%Q).
  { intros z Hz. unfold fmul. rewrite Qmult_1_r. apply fl_int. lia. }
  rewrite !O by lia. rewrite (ffloor_eq (inject_Z m) m) by reflexivity. unfold q. rewrite !fadd_int by lia. reflexivity.
Qed.

(** Attack power of a main stat that is not whole. *)
Lemma ap_cut c t l x n : table_at l = Some t -> same_table c t ->
  (Qabs (x - (n # 100)) <= 1 # 2 ^ 30)%Q -> Z.abs n <= 20000000 ->
  exists k, cut (ap_step t * (n - 100 * base_main t)) (100 * base_main t) k
    /\ (fAP c x false == inject_Z (100 + k))%Q /\ Z.abs (100 + k) <= 200000.
Proof.
  intros T S X N. destruct (table_sane l t T) as (S1 & S2 & S3 & S4 & S5 & S6).
  destruct S as (E1 & _ & _ & E4 & _). unfold fAP. rewrite E1, E4. set (mn := base_main t) in *. set (st := ap_step t) in *.
  set (y := fdiv _ _). exists (Qfloor y).
  assert (C : cut (st * (n - 100 * mn)) (100 * mn) (Qfloor y)).
  { apply floor_near; [lia|]. subst y. unfold q.
    assert (M1 : (390 <= inject_Z mn <= 440)%Q) by (split; [apply (inject_Z_le 390) | apply (inject_Z_le mn 440)]; lia).
    assert (T1 : (0 <= inject_Z st <= 240)%Q) by (split; [apply (inject_Z_le 0) | apply (inject_Z_le st 240)]; lia).
    set (v := ((n # 100) - inject_Z mn)%Q).
    assert (Nb : (-200000 <= (n # 100) <= 200000)%Q) by (unfold Qle; cbn [Qnum Qden]; lia).
    assert (V : (-200440 <= v <= 200440)%Q) by (unfold v; lra).
    apply Qabs_Qle_condition in X. change (1 # 2 ^ 30)%Q with (1 # 1073741824)%Q in X.
    pose proof (fl_error (x - inject_Z mn)) as F1. fold (fsub x (inject_Z mn)) in F1. set (f1 := fsub x (inject_Z mn)) in *.
    change (pow2 (-53)) with (1 # 9007199254740992)%Q in F1.
    assert (A1 : (Qabs (x - inject_Z mn) <= 300000)%Q) by (apply Qabs_Qle_condition; unfold v in V; lra).
    assert (G1 : (Qabs (f1 - (x - inject_Z mn)) <= 1 # 1073741824)%Q).
    { eapply Qle_trans; [exact F1|]. apply Qle_trans with (300000 * (1 # 9007199254740992))%Q; [apply Qmult_le_compat_r; [exact A1 | discriminate]|].
      vm_compute. discriminate. }
    apply Qabs_Qle_condition in G1.
    assert (H1 : (- (1 # 500000000) <= f1 - v <= 1 # 500000000)%Q) by (unfold v; lra).
    pose proof (fl_error (inject_Z st * f1)) as F2. fold (fmul (inject_Z st) f1) in F2. set (f2 := fmul (inject_Z st) f1) in *.
    change (pow2 (-53)) with (1 # 9007199254740992)%Q in F2.
    assert (A2 : (Qabs (inject_Z st * f1) <= 60000000)%Q).
    { rewrite Qabs_Qmult, (Qabs_pos (inject_Z st)) by apply T1. assert (Qabs f1 <= 250000)%Q by (apply Qabs_Qle_condition; lra).
      pose proof (Qabs_nonneg f1). nra. }
    assert (G2 : (Qabs (f2 - inject_Z st * f1) <= 1 # 100000000)%Q).
    { eapply Qle_trans; [exact F2|]. apply Qle_trans with (60000000 * (1 # 9007199254740992))%Q; [apply Qmult_le_compat_r; [exact A2 | discriminate]|].
      vm_compute. discriminate. }
    apply Qabs_Qle_condition in G2.
    assert (H2 : (- (1 # 1000000) <= f2 - inject_Z st * v <= 1 # 1000000)%Q) by nra.
    set (i := (/ inject_Z mn)%Q). assert (I0 : (0 < i)%Q) by (apply Qinv_lt_0_compat; lra).
    assert (ID : (inject_Z mn * i == 1)%Q) by (apply Qmult_inv_r; intros Z0; lra).
    assert (I1 : (i <= 1 # 390)%Q) by nra. assert (I2 : (1 # 440 <= i)%Q) by nra.
    unfold fdiv, Qdiv. fold i. pose proof (fl_error (f2 * i)) as F3. set (f3 := fl (f2 * i)) in *.
    change (pow2 (-53)) with (1 # 9007199254740992)%Q in F3.
    assert (A3 : (Qabs (f2 * i) <= 60000001)%Q).
    { rewrite Qabs_Qmult, (Qabs_pos i) by lra. assert (Qabs f2 <= 60000001)%Q.
      { apply Qabs_Qle_condition. apply Qabs_Qle_condition in A2. lra. }
      pose proof (Qabs_nonneg f2). nra. }
    assert (G3 : (Qabs (f3 - f2 * i) <= 1 # 100000000)%Q).
    { eapply Qle_trans; [exact F3|]. apply Qle_trans with (60000001 * (1 # 9007199254740992))%Q; [apply Qmult_le_compat_r; [exact A3 | discriminate]|].
      vm_compute. discriminate. }
    apply Qabs_Qle_condition in G3.
    assert (EX : (inject_Z (st * (n - 100 * mn)) * / inject_Z (100 * mn) == inject_Z st * v * i)%Q).
    { unfold v, i. rewrite !inject_Z_mult. unfold Z.sub. rewrite inject_Z_plus, inject_Z_opp, inject_Z_mult. change (inject_Z 100) with 100%Q.
      assert (NN : (n # 100 == inject_Z n / 100)%Q) by (symmetry; apply (Qdiv_inject n 100); lia). rewrite NN. field. intros Z0. lra. }
    rewrite EX. apply Qabs_Qlt_condition.
    assert (IV : (1 * / inject_Z (100 * mn) == (1 # 100) * i)%Q).
    { unfold i. rewrite inject_Z_mult. change (inject_Z 100) with 100%Q. field. intros Z0. lra. }
    rewrite IV. split; nra. }
  split; [exact C|]. pose proof (abs_mul st (n - 100 * mn) 237 20044000 ltac:(lia) ltac:(lia)) as Ab.
  pose proof (cut_abs (st * (n - 100 * mn)) (100 * mn) _ 150000 ltac:(lia) ltac:(lia) ltac:(lia) C) as Kb.
  split; [|lia]. unfold ffloor, q. rewrite fadd_int by lia. rewrite Z.add_comm. reflexivity.
Qed.

(** ** Steps of the formulas *)
Lemma floor_pos_d d : 0 < d -> ~ (inject_Z d == 0)%Q.
Proof. intros D H. apply (inject_Z_eq d 0) in H. lia. Qed.
(** A number of hundredths times a whole number. *)
Lemma hundredth_times x k y m : (x == inject_Z k)%Q -> (y == inject_Z m)%Q -> Z.abs (k * m) < 2 ^ 45 ->
  cut (k * m) 100 (Qfloor (fmul (fdiv x (q 100)) y)).
Proof.
  intros X Y B. apply (near_cut 2); [lia|lia|exact B|]. unfold q.
  assert (E : (inject_Z (k * m) / inject_Z 100 == inject_Z k / inject_Z 100 * inject_Z m)%Q).
  { rewrite inject_Z_mult. unfold Qdiv. ring. }
  rewrite E. unfold fmul, fdiv. rewrite X, Y. apply (near_fl 1); [lia|]. apply near_mult. apply (near_fl 0); [lia|]. apply near_refl.
Qed.
(** [floor((k/100)*m/10)] *)
Lemma hundredth_tenth x k y m : (x == inject_Z k)%Q -> (y == inject_Z m)%Q -> Z.abs (k * m) < 2 ^ 45 ->
  cut (k * m) 1000 (Qfloor (fdiv (fmul (fdiv x (q 100)) y) (q 10))).
Proof.
  intros X Y B. apply (near_cut 3); [lia|lia|exact B|]. unfold q.
  assert (E : (inject_Z (k * m) / inject_Z 1000 == inject_Z k / inject_Z 100 * inject_Z m / inject_Z 10)%Q).
  { rewrite inject_Z_mult. change (inject_Z 1000) with (100 * 10)%Q. change (inject_Z 100) with 100%Q. change (inject_Z 10) with 10%Q. field. }
  rewrite E. unfold fmul, fdiv. rewrite X, Y. apply (near_fl 2); [lia|]. apply near_div. apply (near_fl 1); [lia|]. apply near_mult.
  apply (near_fl 0); [lia|]. apply near_refl.
Qed.
(** [floor((k/1000)*m)] and [floor((k/1000)*m/1000)] *)
Lemma thousandth_times x k y m : (x == inject_Z k)%Q -> (y == inject_Z m)%Q -> Z.abs (k * m) < 2 ^ 45 ->
  cut (k * m) 1000 (Qfloor (fmul (fdiv x (q 1000)) y)).
Proof.
  intros X Y B. apply (near_cut 2); [lia|lia|exact B|]. unfold q.
  assert (E : (inject_Z (k * m) / inject_Z 1000 == inject_Z k / inject_Z 1000 * inject_Z m)%Q).
  { rewrite inject_Z_mult. unfold Qdiv. ring. }
  rewrite E. unfold fmul, fdiv. rewrite X, Y. apply (near_fl 1); [lia|]. apply near_mult. apply (near_fl 0); [lia|]. apply near_refl.
Qed.
Lemma thousandth_thousandth x k y m : (x == inject_Z k)%Q -> (y == inject_Z m)%Q -> Z.abs (k * m) < 2 ^ 45 ->
  cut (k * m) 1000000 (Qfloor (fdiv (fmul (fdiv x (q 1000)) y) (q 1000))).
Proof.
  intros X Y B. apply (near_cut 3); [lia|lia|exact B|]. unfold q.
  assert (E : (inject_Z (k * m) / inject_Z 1000000 == inject_Z k / inject_Z 1000 * inject_Z m / inject_Z 1000)%Q).
  { rewrite inject_Z_mult. change (inject_Z 1000000) with (1000 * 1000)%Q. change (inject_Z 1000) with 1000%Q. field. }
  rewrite E. unfold fmul, fdiv. rewrite X, Y. apply (near_fl 2); [lia|]. apply near_div. apply (near_fl 1); [lia|]. apply near_mult.
  apply (near_fl 0); [lia|]. apply near_refl.
Qed.
Lemma tenth_times x k y m : (x == inject_Z k)%Q -> (y == inject_Z m)%Q -> Z.abs (k * m) < 2 ^ 45 ->
  cut (k * m) 10 (Qfloor (fmul (fdiv x (q 10)) y)).
Proof.
  intros X Y B. apply (near_cut 2); [lia|lia|exact B|]. unfold q.
  assert (E : (inject_Z (k * m) / inject_Z 10 == inject_Z k / inject_Z 10 * inject_Z m)%Q).
  { rewrite inject_Z_mult. unfold Qdiv. ring. }
  rewrite E. unfold fmul, fdiv. rewrite X, Y. apply (near_fl 1); [lia|]. apply near_mult. apply (near_fl 0); [lia|]. apply near_refl.
Qed.
(** Weapon delay: [floor(k * (delay / 3))]. *)
Lemma delay_times x k z : (x == inject_Z k)%Q -> Z.abs (k * z) < 2 ^ 45 ->
  cut (k * z) 300 (Qfloor (fmul x (fdiv (dec z 100) (q 3)))).
Proof.
  intros X B. apply (near_cut 3); [lia|lia|exact B|]. unfold q.
  assert (E : (inject_Z (k * z) / inject_Z 300 == inject_Z k * ((z # 100) / inject_Z 3))%Q).
  { assert (W : (z # 100 == inject_Z z / inject_Z 100)%Q) by (symmetry; apply (Qdiv_inject z 100); lia). rewrite W, inject_Z_mult.
    change (inject_Z 300) with (100 * 3)%Q. change (inject_Z 100) with 100%Q. change (inject_Z 3) with 3%Q. field. }
  rewrite E. unfold fmul, fdiv. rewrite X. apply (near_fl 2); [lia|]. apply near_mult_l. apply (near_fl 1); [lia|]. apply near_div, dec_near.
Qed.
