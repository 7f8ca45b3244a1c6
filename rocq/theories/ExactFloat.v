(** * How doubles and whole numbers agree *)

From Coq Require Import ZArith QArith Qround Qabs Lia Lqa Setoid Morphisms.
From Verif Require Import Float FloatFacts.
Open Scope Q_scope.
Local Opaque fl.

(** [a] is [x] up to [n] roundings. *)
Definition ulp : Q := 1 # (2 ^ 52).
Definition near (n : Z) (a x : Q) : Prop := Qabs (a - x) <= inject_Z n * ulp * Qabs x.

#[export] Instance near_compat n : Proper (Qeq ==> Qeq ==> iff) (near n).
Proof. intros a b E x y F. unfold near. rewrite E, F. reflexivity. Qed.

Lemma near_refl x : near 0 x x.
Proof. unfold near. setoid_replace (x - x) with 0 by ring. setoid_replace (inject_Z 0 * ulp * Qabs x) with 0 by (change (inject_Z 0) with 0; ring). discriminate. Qed.
Lemma near_mult n a x z : near n a x -> near n (a * z) (x * z).
Proof.
  unfold near. intros H. setoid_replace (a * z - x * z) with ((a - x) * z) by ring. rewrite !Qabs_Qmult.
  rewrite Qmult_assoc. apply Qmult_le_compat_r; [exact H | apply Qabs_nonneg].
Qed.
Lemma near_mult_l n a x z : near n a x -> near n (z * a) (z * x).
Proof. intros H. rewrite (Qmult_comm z a), (Qmult_comm z x). apply near_mult, H. Qed.
Lemma near_div n a x z : near n a x -> near n (a / z) (x / z).
Proof. apply near_mult. Qed.
Lemma near_fl n a x : (0 <= n <= 100)%Z -> near n a x -> near (n + 1) (fl a) x.
Proof.
  unfold near. intros N H. pose proof (fl_error a) as E.
  assert (A : Qabs a <= Qabs x + Qabs (a - x)).
  { eapply Qle_trans; [|apply Qabs_triangle]. setoid_replace (x + (a - x)) with a by ring. apply Qle_refl. }
  assert (T : Qabs (fl a - x) <= Qabs (fl a - a) + Qabs (a - x)).
  { eapply Qle_trans; [|apply Qabs_triangle]. setoid_replace (fl a - a + (a - x)) with (fl a - x) by ring. apply Qle_refl. }
  assert (P : pow2 (-53) == (1 # 2) * ulp) by reflexivity. rewrite P in E.
  pose proof (Qabs_nonneg x) as X. set (u := ulp) in *.
  assert (U : 0 < u) by reflexivity. assert (U' : u <= 1 # 1000) by (vm_compute; discriminate).
  assert (N0 : 0 <= inject_Z n) by (apply (inject_Z_le 0); lia).
  assert (N1 : inject_Z n <= 100) by (apply (inject_Z_le n 100); lia).
  rewrite inject_Z_plus. change (inject_Z 1) with 1.
  assert (S : Qabs a <= 2 * Qabs x).
  { assert (inject_Z n * u * Qabs x <= Qabs x); [|lra].
    assert (inject_Z n * u <= 1) by nra. nra. }
  assert (Qabs a * ((1 # 2) * u) <= Qabs x * u) by nra. nra.
Qed.

Lemma Qdiv_inject n d : (0 < d)%Z -> inject_Z n / inject_Z d == n # Z.to_pos d.
Proof.
  intros D. unfold Qeq, Qdiv, Qinv, Qmult, inject_Z. cbn. destruct d as [|d|d]; try lia. cbn. lia.
Qed.
Lemma floor_quot n d : (0 < d)%Z -> Qfloor (inject_Z n / inject_Z d) = (n / d)%Z.
Proof. intros D. rewrite (Qfloor_comp _ _ (Qdiv_inject n d D)). cbn. rewrite Z2Pos.id by exact D. reflexivity. Qed.
Lemma quot_parts n d : (0 < d)%Z -> inject_Z n / inject_Z d == inject_Z (n / d) + inject_Z (n mod d) / inject_Z d.
Proof.
  intros D. assert (N : ~ inject_Z d == 0) by (intros H; apply (inject_Z_eq d 0) in H; lia).
  rewrite (Z.div_mod n d) at 1 by lia. rewrite inject_Z_plus, inject_Z_mult. field. exact N.
Qed.

Lemma floor_is x z : inject_Z z <= x -> x < inject_Z (z + 1) -> Qfloor x = z.
Proof.
  intros L U. apply Z.le_antisymm.
  - apply Z.lt_succ_r. apply inject_Z_lt_inv. eapply Qle_lt_trans; [apply Qfloor_le | exact U].
  - rewrite <- (Qfloor_Z z). apply Qfloor_resp_le, L.
Qed.

(** A double close to a quotient rounds down like it; when the quotient is whole it may lose one. *)
Lemma floor_near n d y : (0 < d)%Z -> Qabs (y - inject_Z n / inject_Z d) < 1 / inject_Z d ->
  Qfloor y = (n / d)%Z \/ (n mod d = 0 /\ Qfloor y = n / d - 1)%Z.
Proof.
  intros D H. apply Qabs_Qlt_condition in H as (H1 & H2). rewrite (quot_parts n d D) in H1, H2.
  assert (P : 0 < inject_Z d) by (apply (inject_Z_lt 0); lia).
  set (i := / inject_Z d) in *. assert (I : 0 < i) by (apply Qinv_lt_0_compat, P).
  unfold Qdiv in H1, H2. fold i in H1, H2. rewrite Qmult_1_l in H1, H2.
  assert (ID : inject_Z d * i == 1) by (apply Qmult_inv_r; intros X; rewrite X in P; discriminate).
  pose proof (Z.mod_pos_bound n d D) as M.
  assert (M1 : inject_Z (n mod d) + 1 <= inject_Z d).
  { change 1 with (inject_Z 1). rewrite <- inject_Z_plus. apply inject_Z_le. lia. }
  assert (U : inject_Z (n mod d) * i + i <= 1) by nra.
  destruct (Z.eq_dec (n mod d) 0) as [Z0|NZ].
  - rewrite Z0 in *. change (inject_Z 0) with 0 in *. assert (I1 : i <= 1) by lra.
    destruct (Qlt_le_dec y (inject_Z (n / d))) as [L|L].
    + right. split; [reflexivity|]. apply floor_is.
      * unfold Z.sub. rewrite inject_Z_plus. change (inject_Z (- (1))) with (-1). lra.
      * replace (n / d - 1 + 1)%Z with (n / d)%Z by lia. exact L.
    + left. apply floor_is; [exact L|]. rewrite inject_Z_plus. change (inject_Z 1) with 1. lra.
  - left. assert (G : 1 <= inject_Z (n mod d)) by (apply (inject_Z_le 1); lia). apply floor_is.
    + nra.
    + rewrite inject_Z_plus. change (inject_Z 1) with 1. lra.
Qed.
Lemma near_close k n d y : (0 <= k <= 100)%Z -> (0 < d)%Z -> (Z.abs n < 2 ^ 45)%Z -> near k y (inject_Z n / inject_Z d) ->
  Qabs (y - inject_Z n / inject_Z d) < 1 / inject_Z d.
Proof.
  intros K D B H. eapply Qle_lt_trans; [exact H|].
  assert (P : 0 < inject_Z d) by (apply (inject_Z_lt 0); lia).
  unfold Qdiv. rewrite Qabs_Qmult. set (i := / inject_Z d) in *. assert (I : 0 < i) by (apply Qinv_lt_0_compat, P).
  rewrite (Qabs_pos i) by lra. rewrite Qmult_1_l.
  assert (A : Qabs (inject_Z n) == inject_Z (Z.abs n)) by reflexivity. rewrite A.
  assert (B' : inject_Z (Z.abs n) <= inject_Z (2 ^ 45)) by (apply inject_Z_le; lia).
  assert (K1 : inject_Z k <= 100) by (apply (inject_Z_le k 100); lia). assert (K0 : 0 <= inject_Z k) by (apply (inject_Z_le 0); lia).
  assert (N0 : 0 <= inject_Z (Z.abs n)) by (apply (inject_Z_le 0); lia).
  assert (C : inject_Z k * ulp * inject_Z (Z.abs n) < 1).
  { apply Qle_lt_trans with (100 * ulp * inject_Z (2 ^ 45)); [|reflexivity].
    assert (U : 0 < ulp) by reflexivity. apply Qle_trans with (100 * ulp * inject_Z (Z.abs n)).
    - apply Qmult_le_compat_r; [|exact N0]. apply Qmult_le_compat_r; [exact K1 | lra].
    - apply Qmult_le_l; [reflexivity | exact B']. }
  setoid_replace (inject_Z k * ulp * (inject_Z (Z.abs n) * i)) with (inject_Z k * ulp * inject_Z (Z.abs n) * i) by ring. nra.
Qed.
(** One division of whole numbers rounds down exactly. *)
Lemma floor_fdiv n d : (0 < d)%Z -> (Z.abs n <= 2 ^ 52)%Z -> Qfloor (fdiv (inject_Z n) (inject_Z d)) = (n / d)%Z.
Proof.
  intros D B. assert (P : 0 < inject_Z d) by (apply (inject_Z_lt 0); lia).
  set (x := inject_Z n / inject_Z d). assert (F : Qfloor x = (n / d)%Z) by apply floor_quot, D.
  assert (Ab : (Z.abs (n / d) <= 2 ^ 52)%Z).
  { apply Z.abs_le. apply Z.abs_le in B. split; [apply Z.div_le_lower_bound; nia | apply Z.div_le_upper_bound; nia]. }
  apply floor_is.
  - apply fl_ge_int; [lia|]. fold x. rewrite <- F. apply Qfloor_le.
  - pose proof (fl_error x) as E. fold x. unfold fdiv. fold x. apply Qabs_Qle_condition in E as (_ & E).
    pose proof (quot_parts n d D) as Q1. fold x in Q1. pose proof (Z.mod_pos_bound n d D) as M.
    set (i := / inject_Z d) in *. assert (I : 0 < i) by (apply Qinv_lt_0_compat, P).
    assert (ID : inject_Z d * i == 1) by (apply Qmult_inv_r; intros X; rewrite X in P; discriminate).
    assert (M1 : inject_Z (n mod d) + 1 <= inject_Z d).
    { change 1 with (inject_Z 1). rewrite <- inject_Z_plus. apply inject_Z_le. lia. }
    assert (U : x <= inject_Z (n / d) + 1 - i).
    { rewrite Q1. unfold Qdiv. fold i. nra. }
    assert (S : Qabs x * pow2 (-53) <= (1 # 2) * i).
    { unfold x, Qdiv. fold i. rewrite Qabs_Qmult, (Qabs_pos i) by lra. change (Qabs (inject_Z n)) with (inject_Z (Z.abs n)).
      assert (B' : inject_Z (Z.abs n) <= inject_Z (2 ^ 52)) by (apply inject_Z_le; lia).
      assert (inject_Z (Z.abs n) * pow2 (-53) <= (1 # 2)).
      { apply Qle_trans with (inject_Z (2 ^ 52) * pow2 (-53)); [apply Qmult_le_compat_r; [exact B' | apply Qlt_le_weak, pow2_pos]|]. vm_compute. discriminate. }
      setoid_replace (inject_Z (Z.abs n) * i * pow2 (-53)) with (inject_Z (Z.abs n) * pow2 (-53) * i) by ring.
      apply Qmult_le_compat_r; lra. }
    rewrite inject_Z_plus. change (inject_Z 1) with 1. lra.
Qed.
Lemma ffloor_fdiv n d : (0 < d)%Z -> (Z.abs n <= 2 ^ 52)%Z -> ffloor (fdiv (inject_Z n) (inject_Z d)) = inject_Z (n / d).
Proof. intros D B. unfold ffloor. rewrite floor_fdiv by assumption. reflexivity. Qed.

(** Whole numbers. *)
Lemma fmul_int a b : (Z.abs (a * b) <= 2 ^ 53)%Z -> fmul (inject_Z a) (inject_Z b) == inject_Z (a * b).
Proof. intros H. unfold fmul. rewrite <- inject_Z_mult. apply fl_int, H. Qed.
Lemma fadd_int a b : (Z.abs (a + b) <= 2 ^ 53)%Z -> fadd (inject_Z a) (inject_Z b) == inject_Z (a + b).
Proof. intros H. unfold fadd. rewrite <- inject_Z_plus. apply fl_int, H. Qed.
Lemma fsub_int a b : (Z.abs (a - b) <= 2 ^ 53)%Z -> fsub (inject_Z a) (inject_Z b) == inject_Z (a - b).
Proof.
  intros H. unfold fsub. setoid_replace (inject_Z a - inject_Z b) with (inject_Z (a - b)); [apply fl_int, H|].
  unfold Z.sub. rewrite inject_Z_plus, inject_Z_opp. reflexivity.
Qed.
Lemma ffloor_eq x z : x == inject_Z z -> ffloor x = inject_Z z.
Proof. intros H. unfold ffloor. rewrite (Qfloor_comp _ _ H), Qfloor_Z. reflexivity. Qed.
Lemma ffloor_div x n d : x == inject_Z n -> (0 < d)%Z -> (Z.abs n <= 2 ^ 52)%Z -> ffloor (fdiv x (inject_Z d)) = inject_Z (n / d).
Proof.
  intros H D B. rewrite <- (ffloor_fdiv n d D B). unfold ffloor. f_equal. apply Qfloor_comp. rewrite H. reflexivity.
Qed.

Lemma fdiv_even n d : (0 < d)%Z -> (Z.abs n <= 2 ^ 52)%Z -> (n mod d = 0)%Z -> fdiv (inject_Z n) (inject_Z d) == inject_Z (n / d).
Proof.
  intros D B M. unfold fdiv. rewrite (quot_parts n d D), M.
  setoid_replace (inject_Z (n / d) + inject_Z 0 / inject_Z d) with (inject_Z (n / d)) by (change (inject_Z 0) with 0; unfold Qdiv; ring).
  apply fl_int. apply Z.abs_le. apply Z.abs_le in B. split; [apply Z.div_le_lower_bound; nia | apply Z.div_le_upper_bound; nia].
Qed.
(** A quotient and a whole number. *)
Lemma floor_fadd n d z : (0 < d <= 2 ^ 13)%Z -> (Z.abs n <= 2 ^ 30)%Z -> (Z.abs z <= 2 ^ 20)%Z ->
  Qfloor (fadd (fdiv (inject_Z n) (inject_Z d)) (inject_Z z)) = (n / d + z)%Z.
Proof.
  intros D B C. assert (P : 0 < inject_Z d) by (apply (inject_Z_lt 0); lia).
  assert (Ab : (Z.abs (n / d) <= 2 ^ 30)%Z).
  { apply Z.abs_le. apply Z.abs_le in B. split; [apply Z.div_le_lower_bound; nia | apply Z.div_le_upper_bound; nia]. }
  set (x := inject_Z n / inject_Z d). unfold fdiv, fadd. fold x.
  assert (F : inject_Z (n / d) <= fl x).
  { apply fl_ge_int; [lia|]. unfold x. rewrite <- (floor_quot n d) by lia. apply Qfloor_le. }
  assert (X : Qabs x <= inject_Z (2 ^ 30)).
  { apply Qabs_Qle_condition. unfold x. pose proof (quot_parts n d ltac:(lia)) as Q1. apply Z.abs_le in B. split.
    - apply Qle_shift_div_l; [exact P|]. rewrite <- inject_Z_opp, <- inject_Z_mult. apply inject_Z_le. nia.
    - apply Qle_shift_div_r; [exact P|]. rewrite <- inject_Z_mult. apply inject_Z_le. nia. }
  apply floor_is.
  - apply fl_ge_int; [lia|]. rewrite inject_Z_plus. lra.
  - destruct (Z.eq_dec (n mod d) 0) as [M|M].
    + pose proof (fdiv_even n d ltac:(lia) ltac:(lia) M) as E. unfold fdiv in E. fold x in E. rewrite E, <- inject_Z_plus, fl_int by lia.
      apply inject_Z_lt. lia.
    + pose proof (fl_error x) as E. pose proof (fl_error (fl x + inject_Z z)) as G.
      set (i := / inject_Z d) in *. assert (I : 0 < i) by (apply Qinv_lt_0_compat, P).
      assert (ID : inject_Z d * i == 1) by (apply Qmult_inv_r; intros Y; rewrite Y in P; discriminate).
      assert (I13 : (1 # (2 ^ 13)) <= i).
      { assert (inject_Z d <= inject_Z (2 ^ 13)) by (apply inject_Z_le; lia).
        destruct (Qlt_le_dec i (1 # (2 ^ 13))) as [L|L]; [|exact L]. exfalso.
        assert (inject_Z (2 ^ 13) * (1 # (2 ^ 13)) == 1) by reflexivity. assert (inject_Z d * i < 1); [|lra].
        change (inject_Z (2 ^ 13)) with (8192 # 1) in *. change (1 # 2 ^ 13) with (1 # 8192) in *. nra. }
      pose proof (Z.mod_pos_bound n d ltac:(lia)) as Mb.
      assert (M1 : inject_Z (n mod d) + 1 <= inject_Z d).
      { change 1 with (inject_Z 1). rewrite <- inject_Z_plus. apply inject_Z_le. lia. }
      assert (U : x <= inject_Z (n / d) + 1 - i).
      { unfold x. rewrite (quot_parts n d) by lia. unfold Qdiv. fold i. nra. }
      assert (P53 : pow2 (-53) == 1 # (2 ^ 53)) by reflexivity. rewrite P53 in E, G.
      assert (E' : Qabs (fl x - x) <= 1 # (2 ^ 20)).
      { eapply Qle_trans; [exact E|]. apply Qle_trans with (inject_Z (2 ^ 30) * (1 # 2 ^ 53)); [apply Qmult_le_compat_r; [exact X | discriminate]|].
        vm_compute. discriminate. }
      assert (Zb : Qabs (inject_Z z) <= inject_Z (2 ^ 20)) by (change (Qabs (inject_Z z)) with (inject_Z (Z.abs z)); apply inject_Z_le; exact C).
      assert (S : Qabs (fl x + inject_Z z) <= inject_Z (2 ^ 31)).
      { apply Qabs_Qle_condition in E'. apply Qabs_Qle_condition in X. apply Qabs_Qle_condition in Zb. apply Qabs_Qle_condition.
        change (inject_Z (2 ^ 30)) with (1073741824 # 1) in *. change (inject_Z (2 ^ 20)) with (1048576 # 1) in *.
        change (inject_Z (2 ^ 31)) with (2147483648 # 1). change (1 # 2 ^ 20) with (1 # 1048576) in *. lra. }
      assert (G' : Qabs (fl (fl x + inject_Z z) - (fl x + inject_Z z)) <= 1 # (2 ^ 20)).
      { eapply Qle_trans; [exact G|]. apply Qle_trans with (inject_Z (2 ^ 31) * (1 # 2 ^ 53)); [apply Qmult_le_compat_r; [exact S | discriminate]|].
        vm_compute. discriminate. }
      apply Qabs_Qle_condition in E'. apply Qabs_Qle_condition in G'. rewrite !inject_Z_plus. change (inject_Z 1) with 1.
      change (1 # 2 ^ 20) with (1 # 1048576) in *. change (1 # 2 ^ 13) with (1 # 8192) in *. lra.
Qed.

Lemma dec_near z d : near 1 (dec z d) (z # d).
Proof. unfold dec. apply (near_fl 0); [lia|]. apply near_refl. Qed.
Lemma near_both j k a x b y : (0 <= j <= 100)%Z -> (0 <= k <= 100)%Z -> near j a x -> near k b y -> near (j + k + 1) (a * b) (x * y).
Proof.
  unfold near. intros J K H L. setoid_replace (a * b - x * y) with ((a - x) * (b - y) + (a - x) * y + x * (b - y)) by ring.
  eapply Qle_trans; [apply Qabs_triangle|].
  assert (T : Qabs ((a - x) * (b - y) + (a - x) * y) <= Qabs ((a - x) * (b - y)) + Qabs ((a - x) * y)) by apply Qabs_triangle.
  rewrite !Qabs_Qmult in *. set (u := ulp) in *. assert (U : 0 < u) by reflexivity. assert (U1 : u * 10000 <= 1) by (vm_compute; discriminate).
  assert (EJ : inject_Z (j + k + 1) == inject_Z j + inject_Z k + 1) by (rewrite !inject_Z_plus; reflexivity).
  assert (J0 : 0 <= inject_Z j) by (change 0 with (inject_Z 0); rewrite <- Zle_Qle; lia).
  assert (J1 : inject_Z j <= 100) by (change 100 with (inject_Z 100); rewrite <- Zle_Qle; lia).
  assert (K0 : 0 <= inject_Z k) by (change 0 with (inject_Z 0); rewrite <- Zle_Qle; lia).
  assert (K1 : inject_Z k <= 100) by (change 100 with (inject_Z 100); rewrite <- Zle_Qle; lia).
  rewrite EJ. set (jq := inject_Z j) in *. set (kq := inject_Z k) in *. clearbody u jq kq. clear EJ J K.
  pose proof (Qabs_nonneg x) as X0. pose proof (Qabs_nonneg y) as Y0. pose proof (Qabs_nonneg (a - x)) as A0. pose proof (Qabs_nonneg (b - y)) as B0.
  set (ax := Qabs (a - x)) in *. set (bx := Qabs (b - y)) in *. set (xx := Qabs x) in *. set (yy := Qabs y) in *.
  assert (P1 : ax * yy <= jq * u * xx * yy) by (apply Qmult_le_compat_r; assumption).
  assert (P2 : xx * bx <= xx * (kq * u * yy)) by (rewrite !(Qmult_comm xx); apply Qmult_le_compat_r; assumption).
  assert (P3 : ax * bx <= jq * u * xx * (kq * u * yy)).
  { apply Qle_trans with (jq * u * xx * bx); [apply Qmult_le_compat_r; assumption|].
    rewrite !(Qmult_comm (jq * u * xx)). apply Qmult_le_compat_r; [exact L|]. apply Qmult_le_0_compat; [|exact X0]. apply Qmult_le_0_compat; lra. }
  assert (XY : 0 <= u * (xx * yy)) by (apply Qmult_le_0_compat; [lra|]; apply Qmult_le_0_compat; assumption).
  assert (JK : jq * kq * u <= 1).
  { apply Qle_trans with (10000 * u); [|lra]. apply Qmult_le_compat_r; [|lra]. nra. }
  assert (P4 : jq * u * xx * (kq * u * yy) <= u * (xx * yy)).
  { setoid_replace (jq * u * xx * (kq * u * yy)) with (jq * kq * u * (u * (xx * yy))) by ring.
    setoid_replace (u * (xx * yy)) with (1 * (u * (xx * yy))) at 2 by ring. apply Qmult_le_compat_r; assumption. }
  setoid_replace (jq * u * xx * yy) with (jq * (u * (xx * yy))) in P1 by ring. setoid_replace (xx * (kq * u * yy)) with (kq * (u * (xx * yy))) in P2 by ring.
  setoid_replace ((jq + kq + 1) * u * (xx * yy)) with (jq * (u * (xx * yy)) + kq * (u * (xx * yy)) + u * (xx * yy)) by ring. lra.
Qed.
Lemma rne_near x z : Qabs (inject_Z z - x) < 1 # 2 -> rne x = z.
Proof.
  intros H. pose proof (rne_bounds x) as B. apply Qabs_Qlt_condition in H. apply Qabs_Qle_condition in B.
  assert (L : inject_Z (rne x) < inject_Z (z + 1)) by (rewrite inject_Z_plus; change (inject_Z 1) with 1; lra).
  assert (R : inject_Z z < inject_Z (rne x + 1)) by (rewrite inject_Z_plus; change (inject_Z 1) with 1; lra).
  apply inject_Z_lt_inv in L. apply inject_Z_lt_inv in R. lia.
Qed.
(** Just below a whole number, rounding gives that number. *)
Lemma fl_snap x m : (0 < m <= 2 ^ 50)%Z -> inject_Z m * (1 - pow2 (-54)) < x -> x <= inject_Z m -> fl x == inject_Z m.
Proof.
  intros M L U. assert (M1 : 1 <= inject_Z m) by (change 1 with (inject_Z 1); apply inject_Z_le; lia).
  assert (S1 : pow2 (-54) <= 1 # 2) by (vm_compute; discriminate). assert (S0 : 0 < pow2 (-54)) by apply pow2_pos.
  assert (X : 0 < x) by nra. assert (X0 : ~ x == 0) by lra. set (e := qexp x).
  destruct (qexp_spec x X0) as [E1 E2]. fold e in E1, E2. rewrite (Qabs_pos x) in E1, E2 by lra.
  assert (E50 : (e <= 50)%Z).
  { assert (pow2 e < pow2 51); [|apply pow2_lt_inv in H; lia]. apply Qle_lt_trans with x; [exact E1|]. apply Qle_lt_trans with (inject_Z m); [exact U|].
    change (pow2 51) with (inject_Z (2 ^ 51)). apply inject_Z_lt. lia. }
  assert (G : inject_Z m == inject_Z (m * 2 ^ (52 - e)) * pow2 (e - 52)).
  { rewrite inject_Z_mult. rewrite <- pow2_nonneg_eq by lia. rewrite <- Qmult_assoc, <- pow2_add.
    replace (52 - e + (e - 52))%Z with 0%Z by lia. change (pow2 0) with 1. ring. }
  set (g := (m * 2 ^ (52 - e))%Z) in *. assert (P : 0 < pow2 (e - 52)) by apply pow2_pos.
  assert (TOP : pow2 (e + 1) == inject_Z (2 ^ 53) * pow2 (e - 52)).
  { rewrite <- pow2_nonneg_eq by lia. rewrite <- pow2_add. replace (53 + (e - 52))%Z with (e + 1)%Z by lia. reflexivity. }
  assert (EPS : pow2 (-54) * inject_Z (2 ^ 53) == 1 # 2) by reflexivity.
  assert (GB : (g <= 2 ^ 53)%Z).
  { assert (H : inject_Z g < inject_Z (2 ^ 53 + 1)); [|apply inject_Z_lt_inv in H; lia]. rewrite inject_Z_plus. change (inject_Z 1) with 1.
    assert (H : inject_Z g * pow2 (e - 52) * (1 - pow2 (-54)) < inject_Z (2 ^ 53) * pow2 (e - 52)) by (rewrite <- G, <- TOP; lra).
    assert (H' : inject_Z g * (1 - pow2 (-54)) < inject_Z (2 ^ 53)).
    { apply (Qmult_lt_r _ _ (pow2 (e - 52))); [exact P|]. setoid_replace (inject_Z g * (1 - pow2 (-54)) * pow2 (e - 52)) with (inject_Z g * pow2 (e - 52) * (1 - pow2 (-54))) by ring. exact H. }
    assert (K : inject_Z (2 ^ 53) <= (inject_Z (2 ^ 53) + 1) * (1 - pow2 (-54))) by (vm_compute; discriminate).
    apply (Qmult_lt_r _ _ (1 - pow2 (-54))); [lra|]. lra. }
  assert (GQ : inject_Z g <= inject_Z (2 ^ 53)) by (apply inject_Z_le, GB).
  rewrite (fl_round_at x X0). fold e. unfold round_at. rewrite (rne_near _ g).
  - symmetry. exact G.
  - assert (C : pow2 (- (e - 52)) * pow2 (e - 52) == 1) by apply pow2_opp. set (i := pow2 (- (e - 52))) in *. assert (I : 0 < i) by apply pow2_pos.
    assert (GM : inject_Z g == inject_Z m * i). { rewrite G. rewrite <- Qmult_assoc, (Qmult_comm (pow2 (e - 52))), C. ring. }
    rewrite Qabs_pos; [|rewrite GM; assert (0 <= (inject_Z m - x) * i) by (apply Qmult_le_0_compat; lra); lra].
    assert (B : inject_Z g - x * i < inject_Z g * pow2 (-54)).
    { rewrite GM. setoid_replace (inject_Z m * i - x * i) with ((inject_Z m - x) * i) by ring. setoid_replace (inject_Z m * i * pow2 (-54)) with (inject_Z m * pow2 (-54) * i) by ring.
      apply Qmult_lt_r; [exact I|]. lra. }
    eapply Qlt_le_trans; [exact B|]. rewrite <- EPS, Qmult_comm. apply Qmult_le_l; [exact S0|exact GQ].
Qed.
