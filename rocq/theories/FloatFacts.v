(** * Double precision rounding: monotone, exact on integers, relative error *)

From Coq Require Import ZArith QArith Qround Qabs Qreduction Qpower Lia Lqa Bool Setoid Morphisms.
From Verif Require Import Base Float.
Open Scope Q_scope.

(** ** Powers of two *)

Lemma inject_Z_le a b : (a <= b)%Z -> inject_Z a <= inject_Z b.
Proof. rewrite Zle_Qle. trivial. Qed.
Lemma inject_Z_lt a b : (a < b)%Z -> inject_Z a < inject_Z b.
Proof. rewrite Zlt_Qlt. trivial. Qed.
Lemma inject_Z_le_inv a b : inject_Z a <= inject_Z b -> (a <= b)%Z.
Proof. rewrite Zle_Qle. trivial. Qed.
Lemma inject_Z_lt_inv a b : inject_Z a < inject_Z b -> (a < b)%Z.
Proof. rewrite Zlt_Qlt. trivial. Qed.
Lemma inject_Z_eq a b : inject_Z a == inject_Z b -> a = b.
Proof. unfold Qeq; cbn; lia. Qed.

Lemma pow2_pos e : 0 < pow2 e.
Proof.
  unfold pow2. destruct e; unfold Qlt; cbn [Qnum Qden inject_Z]; try lia.
Qed.
Lemma pow2_nonneg_eq e : (0 <= e)%Z -> pow2 e == inject_Z (2 ^ e).
Proof. destruct e; cbn; intros; try reflexivity. lia. Qed.
Lemma pow2_inv p : pow2 (Zneg p) * pow2 (Zpos p) == 1.
Proof.
  unfold pow2, Qeq. cbn [Qnum Qden Qmult inject_Z]. rewrite Pos.mul_1_r, !Z.mul_1_l, Z.mul_1_r.
  rewrite Pos2Z.inj_pow. reflexivity.
Qed.
Lemma pow2_opp e : pow2 (- e) * pow2 e == 1.
Proof.
  destruct e as [|p|p]; cbn [Z.opp]; [reflexivity | apply pow2_inv|]. rewrite Qmult_comm. apply pow2_inv.
Qed.
Lemma pow2_succ e : pow2 (e + 1) == 2 * pow2 e.
Proof.
  destruct e as [|p|p].
  - reflexivity.
  - rewrite !pow2_nonneg_eq by lia. rewrite Z.pow_add_r by lia. rewrite inject_Z_mult. cbn. ring.
  - destruct (Pos.eq_dec p 1) as [->|N]; [reflexivity|].
    assert (E : (Z.neg p + 1 = Z.neg (p - 1))%Z) by lia. rewrite E. unfold pow2, Qeq. cbn [Qnum Qden Qmult].
    rewrite Pos2Z.inj_mul, !Pos2Z.inj_pow.
    replace (Z.pos p) with (Z.pos (p - 1) + 1)%Z by lia. rewrite Z.pow_add_r by lia. lia.
Qed.
Lemma pow2_add_nat e (n : nat) : pow2 (e + Z.of_nat n) == pow2 e * inject_Z (2 ^ Z.of_nat n).
Proof.
  induction n as [|n IH].
  - cbn [Z.of_nat]. rewrite Z.add_0_r. cbn. ring.
  - replace (e + Z.of_nat (S n))%Z with (e + Z.of_nat n + 1)%Z by lia. rewrite pow2_succ, IH.
    replace (Z.of_nat (S n)) with (Z.of_nat n + 1)%Z by lia. rewrite Z.pow_add_r, inject_Z_mult by lia. cbn. ring.
Qed.
Lemma pow2_add_nonneg e k : (0 <= k)%Z -> pow2 (e + k) == pow2 e * inject_Z (2 ^ k).
Proof. intros H. rewrite <- (Z2Nat.id k) by exact H. apply pow2_add_nat. Qed.
Lemma pow2_add a b : pow2 (a + b) == pow2 a * pow2 b.
Proof.
  destruct (Z.le_ge_cases 0 b) as [H|H].
  - rewrite pow2_add_nonneg by exact H. rewrite (pow2_nonneg_eq b) by exact H. reflexivity.
  - pose proof (pow2_add_nonneg (a + b) (- b)) as E. replace (a + b + - b)%Z with a in E by lia.
    rewrite E by lia. rewrite <- pow2_nonneg_eq by lia.
    rewrite <- Qmult_assoc, pow2_opp. ring.
Qed.
Lemma pow2_le a b : (a <= b)%Z -> pow2 a <= pow2 b.
Proof.
  intros H. replace b with (a + (b - a))%Z by lia. rewrite pow2_add_nonneg by lia.
  pose proof (pow2_pos a). assert (1 <= inject_Z (2 ^ (b - a))).
  { change 1 with (inject_Z 1). apply inject_Z_le. pose proof (Z.pow_pos_nonneg 2 (b - a) ltac:(lia) ltac:(lia)). lia. }
  nra.
Qed.
Lemma pow2_lt a b : (a < b)%Z -> pow2 a < pow2 b.
Proof.
  intros H. pose proof (pow2_le (a + 1) b ltac:(lia)) as L. rewrite pow2_succ in L. pose proof (pow2_pos a). lra.
Qed.
Lemma pow2_lt_inv a b : pow2 a < pow2 b -> (a < b)%Z.
Proof. intros H. destruct (Z.lt_ge_cases a b) as [L|L]; [exact L|]. apply pow2_le in L. lra. Qed.

(** ** The exponent *)

Lemma Qabs_num x : Qabs x == (Z.abs (Qnum x) # Qden x).
Proof. destruct x. reflexivity. Qed.

Lemma pow2_sub_le l m (n : Z) (d : positive) :
  (0 <= l)%Z -> (0 <= m)%Z -> (2 ^ l <= n)%Z -> (Z.pos d < 2 ^ (m + 1))%Z -> pow2 (l - m - 1) < n # d.
Proof.
  intros Hl Hm Hn Hd.
  assert (E : pow2 (l - m - 1) * pow2 (m + 1) == inject_Z (2 ^ l)).
  { rewrite <- pow2_add. replace (l - m - 1 + (m + 1))%Z with l by lia. apply pow2_nonneg_eq, Hl. }
  rewrite (pow2_nonneg_eq (m + 1)) in E by lia.
  pose proof (pow2_pos (l - m - 1)) as P.
  assert (H1 : inject_Z (2 ^ l) <= inject_Z n) by (apply inject_Z_le; exact Hn).
  assert (H2 : inject_Z (Z.pos d) < inject_Z (2 ^ (m + 1))) by (apply inject_Z_lt; exact Hd).
  assert (H3 : (n # d) * inject_Z (Z.pos d) == inject_Z n) by (unfold Qeq; cbn; lia).
  assert (H4 : 0 < inject_Z (Z.pos d)) by (unfold Qlt; cbn; lia).
  assert (pow2 (l - m - 1) * inject_Z (Z.pos d) < (n # d) * inject_Z (Z.pos d)) by nra. nra.
Qed.
Lemma pow2_sub_ge l m (n : Z) (d : positive) :
  (0 <= l)%Z -> (0 <= m)%Z -> (n < 2 ^ (l + 1))%Z -> (2 ^ m <= Z.pos d)%Z -> n # d < pow2 (l - m + 1).
Proof.
  intros Hl Hm Hn Hd.
  assert (E : pow2 (l - m + 1) * pow2 m == inject_Z (2 ^ (l + 1))).
  { rewrite <- pow2_add. replace (l - m + 1 + m)%Z with (l + 1)%Z by lia. apply pow2_nonneg_eq. lia. }
  rewrite (pow2_nonneg_eq m) in E by lia.
  pose proof (pow2_pos (l - m + 1)) as P.
  assert (H1 : inject_Z n < inject_Z (2 ^ (l + 1))) by (apply inject_Z_lt; exact Hn).
  assert (H2 : inject_Z (2 ^ m) <= inject_Z (Z.pos d)) by (apply inject_Z_le; exact Hd).
  assert (H3 : (n # d) * inject_Z (Z.pos d) == inject_Z n) by (unfold Qeq; cbn; lia).
  assert (H4 : 0 < inject_Z (Z.pos d)) by (unfold Qlt; cbn; lia).
  assert ((n # d) * inject_Z (Z.pos d) < pow2 (l - m + 1) * inject_Z (Z.pos d)) by nra. nra.
Qed.

Lemma qexp_spec x : ~ x == 0 -> pow2 (qexp x) <= Qabs x < pow2 (qexp x + 1).
Proof.
  intros N. unfold qexp.
  set (n := Z.abs (Qnum x)). set (d := Qden x).
  assert (Hn : (0 < n)%Z).
  { unfold n. assert (Qnum x <> 0)%Z; [|lia]. intros E. apply N. unfold Qeq. rewrite E. reflexivity. }
  assert (Ex : Qabs x == n # d) by apply Qabs_num.
  pose proof (Z.log2_spec n Hn) as [L1 L2]. pose proof (Z.log2_spec (Z.pos d) ltac:(lia)) as [M1 M2].
  set (l := Z.log2 n) in *. set (m := Z.log2 (Z.pos d)) in *. set (k := (l - m)%Z).
  pose proof (Z.log2_nonneg n) as Pl. pose proof (Z.log2_nonneg (Z.pos d)) as Pm. fold l in Pl. fold m in Pm.
  pose proof (pow2_sub_le l m n d Pl Pm L1 M2) as A. pose proof (pow2_sub_ge l m n d Pl Pm L2 M1) as B.
  destruct (Qle_bool (pow2 k) (Qabs x)) eqn:Q1.
  - apply Qle_bool_iff in Q1. split; [exact Q1|]. rewrite Ex. exact B.
  - assert (Q2 : ~ pow2 k <= Qabs x) by (intros H; apply Qle_bool_iff in H; congruence).
    replace (k - 1 + 1)%Z with k by lia. split; [rewrite Ex; apply Qlt_le_weak; exact A | lra].
Qed.
Lemma qexp_unique x e : pow2 e <= Qabs x -> Qabs x < pow2 (e + 1) -> qexp x = e.
Proof.
  intros H1 H2. assert (N : ~ x == 0).
  { intros E. rewrite E in H1. cbn in H1. pose proof (pow2_pos e). lra. }
  destruct (qexp_spec x N) as [S1 S2].
  assert (e < qexp x + 1)%Z by (apply pow2_lt_inv; lra).
  assert (qexp x < e + 1)%Z by (apply pow2_lt_inv; lra). lia.
Qed.
Lemma qexp_compat x y : x == y -> ~ x == 0 -> qexp x = qexp y.
Proof.
  intros E N. destruct (qexp_spec x N) as [S1 S2]. symmetry. apply qexp_unique; rewrite <- E; assumption.
Qed.

(** ** Rounding to an integer *)

Lemma rne_cases x : exists f, (inject_Z f <= x < inject_Z (f + 1))
  /\ ((rne x = f /\ x - inject_Z f <= 1 # 2) \/ (rne x = (f + 1)%Z /\ 1 # 2 <= x - inject_Z f)).
Proof.
  exists (Qfloor x). split; [split; [apply Qfloor_le | apply Qlt_floor]|].
  unfold rne. destruct (Qcompare_spec (x - inject_Z (Qfloor x)) (1 # 2)) as [E|L|G].
  - destruct (Z.even (Qfloor x)); [left | right]; split; try reflexivity; lra.
  - left. split; [reflexivity | lra].
  - right. split; [reflexivity | lra].
Qed.
Lemma rne_bounds x : Qabs (inject_Z (rne x) - x) <= 1 # 2.
Proof.
  destruct (rne_cases x) as (f & [H1 H2] & [[-> H]|[-> H]]); apply Qabs_case; intros; rewrite ?inject_Z_plus in *; change (inject_Z 1) with 1 in *; lra.
Qed.
Lemma rne_compat x y : x == y -> rne x = rne y.
Proof.
  intros E. unfold rne. assert (F : Qfloor x = Qfloor y) by (apply Qfloor_comp; exact E). rewrite F.
  destruct (Qcompare_spec (x - inject_Z (Qfloor y)) (1 # 2)) as [H|H|H]; rewrite E in H;
    destruct (Qcompare_spec (y - inject_Z (Qfloor y)) (1 # 2)) as [H'|H'|H']; try reflexivity; lra.
Qed.
Lemma rne_mono x y : x <= y -> (rne x <= rne y)%Z.
Proof.
  intros L. destruct (Qlt_le_dec x y) as [Lt|Ge]; [|assert (E : x == y) by lra; rewrite (rne_compat _ _ E); lia].
  destruct (rne_cases x) as (f & [F1 F2] & C). destruct (rne_cases y) as (g & [G1 G2] & D).
  assert (Hfg : (f <= g)%Z).
  { assert (f < g + 1)%Z; [|lia]. apply inject_Z_lt_inv. lra. }
  destruct (Z.eq_dec f g) as [->|N].
  - destruct C as [[-> C]|[-> C]], D as [[-> D]|[-> D]]; try lia.
    (* x rounds up, y rounds down: both at the half *)
    exfalso. lra.
  - destruct C as [[-> C]|[-> C]], D as [[-> D]|[-> D]]; lia.
Qed.
Lemma rne_int z : rne (inject_Z z) = z.
Proof.
  unfold rne. rewrite Qfloor_Z. destruct (Qcompare_spec (inject_Z z - inject_Z z) (1 # 2)) as [H|H|H]; [lra | reflexivity | lra].
Qed.
Lemma rne_le_int x z : x <= inject_Z z -> (rne x <= z)%Z.
Proof. intros H. rewrite <- (rne_int z). apply rne_mono, H. Qed.
Lemma rne_ge_int x z : inject_Z z <= x -> (z <= rne x)%Z.
Proof. intros H. rewrite <- (rne_int z). apply rne_mono, H. Qed.

(** ** Rounding to double precision *)

Lemma fl_0 : fl 0 == 0. Proof. reflexivity. Qed.
Lemma fl_zero x : x == 0 -> fl x = 0.
Proof. intros E. unfold fl. apply Qeq_bool_iff in E. rewrite E. reflexivity. Qed.

Lemma fl_nonzero x : ~ x == 0 ->
  fl x == inject_Z (rne (x * pow2 (- (qexp x - 52)))) * pow2 (qexp x - 52).
Proof.
  intros N. unfold fl. destruct (Qeq_bool x 0) eqn:E; [apply Qeq_bool_iff in E; contradiction|]. apply Qred_correct.
Qed.
#[export] Instance fl_compat : Proper (Qeq ==> Qeq) fl.
Proof.
  intros x y E. destruct (Qeq_dec x 0) as [Z0|N].
  - rewrite (fl_zero x Z0). rewrite (fl_zero y); [reflexivity | rewrite <- E; exact Z0].
  - assert (N' : ~ y == 0) by (rewrite <- E; exact N).
    rewrite (fl_nonzero x N), (fl_nonzero y N'), (qexp_compat x y E N).
    erewrite (rne_compat (x * _)); [reflexivity|]. rewrite E. reflexivity.
Qed.

Lemma scale_cancel x e : x == x * pow2 (- e) * pow2 e.
Proof. rewrite <- Qmult_assoc, pow2_opp. ring. Qed.

(** Rounding with a fixed exponent. *)
Definition round_at (e : Z) (x : Q) : Q := inject_Z (rne (x * pow2 (- e))) * pow2 e.
Lemma round_at_mono e x y : x <= y -> round_at e x <= round_at e y.
Proof.
  intros L. unfold round_at. pose proof (pow2_pos e). pose proof (pow2_pos (- e)).
  assert (x * pow2 (- e) <= y * pow2 (- e)) by nra.
  apply rne_mono in H1. apply inject_Z_le in H1. nra.
Qed.
Lemma round_at_exact e m : round_at e (inject_Z m * pow2 e) == inject_Z m * pow2 e.
Proof.
  unfold round_at. erewrite (rne_compat (inject_Z m * pow2 e * pow2 (- e)) (inject_Z m)); [rewrite rne_int; reflexivity|].
  rewrite <- Qmult_assoc. rewrite (Qmult_comm (pow2 e)), pow2_opp. ring.
Qed.
Lemma round_at_compat e x y : x == y -> round_at e x == round_at e y.
Proof. intros E. unfold round_at. erewrite (rne_compat (x * _)); [reflexivity|]. rewrite E. reflexivity. Qed.
Lemma round_at_err e x : Qabs (round_at e x - x) <= (1 # 2) * pow2 e.
Proof.
  unfold round_at. pose proof (rne_bounds (x * pow2 (- e))) as B. pose proof (pow2_pos e) as P.
  setoid_replace (inject_Z (rne (x * pow2 (- e))) * pow2 e - x) with ((inject_Z (rne (x * pow2 (- e))) - x * pow2 (- e)) * pow2 e).
  - rewrite Qabs_Qmult, (Qabs_pos (pow2 e)) by lra. nra.
  - setoid_replace ((inject_Z (rne (x * pow2 (- e))) - x * pow2 (- e)) * pow2 e)
      with (inject_Z (rne (x * pow2 (- e))) * pow2 e - x * pow2 (- e) * pow2 e) by ring.
    rewrite <- (scale_cancel x e). reflexivity.
Qed.

Lemma fl_round_at x : ~ x == 0 -> fl x == round_at (qexp x - 52) x.
Proof. apply fl_nonzero. Qed.

(** Powers of two are on the grid of every exponent up to 52 below them. *)
Lemma pow2_grid k e : (e <= k)%Z -> pow2 k == inject_Z (2 ^ (k - e)) * pow2 e.
Proof. intros H. replace k with (e + (k - e))%Z at 1 by lia. rewrite pow2_add_nonneg by lia. ring. Qed.

Lemma fl_pos_bounds x : 0 < x -> pow2 (qexp x) <= fl x <= pow2 (qexp x + 1).
Proof.
  intros P. assert (N : ~ x == 0) by lra. destruct (qexp_spec x N) as [S1 S2]. rewrite Qabs_pos in S1, S2 by lra.
  rewrite fl_round_at by exact N. set (e := (qexp x - 52)%Z). split.
  - rewrite (pow2_grid (qexp x) e) by lia. rewrite <- round_at_exact. apply round_at_mono.
    rewrite <- pow2_grid by lia. exact S1.
  - rewrite (pow2_grid (qexp x + 1) e) by lia. rewrite <- round_at_exact. apply round_at_mono.
    rewrite <- pow2_grid by lia. lra.
Qed.
Lemma fl_neg_bounds x : x < 0 -> - pow2 (qexp x + 1) <= fl x <= - pow2 (qexp x).
Proof.
  intros P. assert (N : ~ x == 0) by lra. destruct (qexp_spec x N) as [S1 S2]. rewrite Qabs_neg in S1, S2 by lra.
  rewrite fl_round_at by exact N. set (e := (qexp x - 52)%Z).
  assert (G : forall k, (e <= k)%Z -> - pow2 k == inject_Z (- 2 ^ (k - e)) * pow2 e).
  { intros k Hk. rewrite (pow2_grid k e) by exact Hk. rewrite inject_Z_opp. ring. }
  split.
  - rewrite (G (qexp x + 1)%Z) by lia. rewrite <- round_at_exact. apply round_at_mono.
    rewrite <- G by lia. lra.
  - rewrite (G (qexp x)) by lia. rewrite <- round_at_exact. apply round_at_mono.
    rewrite <- G by lia. lra.
Qed.

Lemma qexp_mono_pos x y : 0 < x -> x <= y -> (qexp x <= qexp y)%Z.
Proof.
  intros P L. destruct (qexp_spec x ltac:(lra)) as [S1 S2]. destruct (qexp_spec y ltac:(lra)) as [T1 T2].
  rewrite Qabs_pos in S1, S2, T1, T2 by lra. assert (qexp x < qexp y + 1)%Z; [|lia]. apply pow2_lt_inv. lra.
Qed.
Lemma qexp_mono_neg x y : y < 0 -> x <= y -> (qexp y <= qexp x)%Z.
Proof.
  intros P L. destruct (qexp_spec x ltac:(lra)) as [S1 S2]. destruct (qexp_spec y ltac:(lra)) as [T1 T2].
  rewrite Qabs_neg in S1, S2, T1, T2 by lra. assert (qexp y < qexp x + 1)%Z; [|lia]. apply pow2_lt_inv. lra.
Qed.

Lemma fl_nonneg x : 0 <= x -> 0 <= fl x.
Proof.
  intros H. destruct (Qeq_dec x 0) as [E|N]; [rewrite (fl_zero x E); lra|].
  pose proof (fl_pos_bounds x ltac:(lra)). pose proof (pow2_pos (qexp x)). lra.
Qed.
Lemma fl_nonpos x : x <= 0 -> fl x <= 0.
Proof.
  intros H. destruct (Qeq_dec x 0) as [E|N]; [rewrite (fl_zero x E); lra|].
  pose proof (fl_neg_bounds x ltac:(lra)). pose proof (pow2_pos (qexp x)). lra.
Qed.
Lemma fl_pos x : 0 < x -> 0 < fl x.
Proof. intros H. pose proof (fl_pos_bounds x H). pose proof (pow2_pos (qexp x)). lra. Qed.
Lemma fl_neg x : x < 0 -> fl x < 0.
Proof. intros H. pose proof (fl_neg_bounds x H). pose proof (pow2_pos (qexp x)). lra. Qed.

Lemma fl_mono x y : x <= y -> fl x <= fl y.
Proof.
  intros L. destruct (Qlt_le_dec 0 x) as [Px|Nx].
  - pose proof (qexp_mono_pos x y Px L) as Q0. destruct (Z.eq_dec (qexp x) (qexp y)) as [E|N].
    + rewrite (fl_round_at x), (fl_round_at y), E by lra. apply round_at_mono, L.
    + pose proof (fl_pos_bounds x Px) as [_ B1]. pose proof (fl_pos_bounds y ltac:(lra)) as [B2 _].
      pose proof (pow2_le (qexp x + 1) (qexp y) ltac:(lia)). lra.
  - destruct (Qlt_le_dec y 0) as [Ny|Py].
    + pose proof (qexp_mono_neg x y Ny L) as Q0. destruct (Z.eq_dec (qexp x) (qexp y)) as [E|N].
      * rewrite (fl_round_at x), (fl_round_at y), E by lra. apply round_at_mono, L.
      * pose proof (fl_neg_bounds x ltac:(lra)) as [_ B1]. pose proof (fl_neg_bounds y Ny) as [B2 _].
        pose proof (pow2_le (qexp y + 1) (qexp x) ltac:(lia)). lra.
    + pose proof (fl_nonpos x Nx). pose proof (fl_nonneg y Py). lra.
Qed.

(** ** Exactness *)

Lemma fl_exact_aux m e : (Z.abs m < 2 ^ 53)%Z -> fl (inject_Z m * pow2 e) == inject_Z m * pow2 e.
Proof.
  intros H. destruct (Z.eq_dec m 0) as [->|N].
  - rewrite fl_zero; [ring | ring].
  - set (x := inject_Z m * pow2 e). pose proof (pow2_pos e) as P.
    assert (Ax : Qabs x == inject_Z (Z.abs m) * pow2 e).
    { unfold x. rewrite Qabs_Qmult, (Qabs_pos (pow2 e)) by lra. reflexivity. }
    assert (Nx : ~ x == 0).
    { intros E. rewrite E in Ax. cbn in Ax.
      assert (0 < inject_Z (Z.abs m)) by (change 0 with (inject_Z 0); apply inject_Z_lt; lia). nra. }
    destruct (qexp_spec x Nx) as [S1 S2].
    assert (Lq : (qexp x < e + 53)%Z).
    { apply pow2_lt_inv. rewrite pow2_add_nonneg by lia.
      assert (inject_Z (Z.abs m) < inject_Z (2 ^ 53)) by (apply inject_Z_lt; exact H). nra. }
    rewrite fl_round_at by exact Nx.
    assert (G : x == inject_Z (m * 2 ^ (e - (qexp x - 52))) * pow2 (qexp x - 52)).
    { unfold x at 1. rewrite inject_Z_mult, <- Qmult_assoc, <- pow2_grid by lia. reflexivity. }
    rewrite (round_at_compat _ _ _ G), round_at_exact. symmetry. exact G.
Qed.
(** Every number with at most 53 significant bits is a double. *)
Lemma fl_exact m e x : x == inject_Z m * pow2 e -> (Z.abs m <= 2 ^ 53)%Z -> fl x == x.
Proof.
  intros E H. rewrite E. destruct (Z.eq_dec (Z.abs m) (2 ^ 53)) as [A|A]; [|apply fl_exact_aux; lia].
  assert (S : (m = 2 ^ 53 \/ m = - 2 ^ 53)%Z) by lia.
  assert (E2 : inject_Z (2 ^ 53) * pow2 e == pow2 (e + 53)) by (rewrite pow2_add_nonneg by lia; ring).
  destruct S as [->| ->].
  - rewrite E2. pose proof (fl_exact_aux 1 (e + 53) ltac:(cbn; lia)) as F.
    setoid_replace (pow2 (e + 53)) with (inject_Z 1 * pow2 (e + 53)); [exact F | cbn; ring].
  - rewrite inject_Z_opp. pose proof (fl_exact_aux (-1) (e + 53) ltac:(cbn; lia)) as F.
    setoid_replace (- inject_Z (2 ^ 53) * pow2 e) with (inject_Z (-1) * pow2 (e + 53)); [exact F|].
    rewrite <- E2. change (inject_Z (-1)) with (-(1)). ring.
Qed.
Lemma fl_int z : (Z.abs z <= 2 ^ 53)%Z -> fl (inject_Z z) == inject_Z z.
Proof. apply (fl_exact z 0). change (pow2 0) with 1. ring. Qed.
Lemma fl_1 : fl 1 == 1.
Proof. apply (fl_int 1). cbn. lia. Qed.

(** A rounded number is a double. *)
Lemma fl_form x : exists m e, fl x == inject_Z m * pow2 e /\ (Z.abs m <= 2 ^ 53)%Z.
Proof.
  destruct (Qeq_dec x 0) as [E|N].
  - exists 0%Z, 0%Z. split; [rewrite (fl_zero x E); ring | cbn; lia].
  - exists (rne (x * pow2 (- (qexp x - 52)))), (qexp x - 52)%Z. split; [apply fl_nonzero, N|].
    destruct (qexp_spec x N) as [S1 S2]. set (e := (qexp x - 52)%Z).
    assert (B : Qabs (x * pow2 (- e)) < inject_Z (2 ^ 53)).
    { rewrite Qabs_Qmult, (Qabs_pos (pow2 (- e))) by (apply Qlt_le_weak, pow2_pos).
      replace (qexp x + 1)%Z with (e + 53)%Z in S2 by lia. rewrite pow2_add_nonneg in S2 by lia.
      pose proof (pow2_pos (- e)). pose proof (pow2_opp e).
      assert (Qabs x * pow2 (- e) < pow2 e * inject_Z (2 ^ 53) * pow2 (- e)) by nra.
      setoid_replace (pow2 e * inject_Z (2 ^ 53) * pow2 (- e)) with (inject_Z (2 ^ 53) * (pow2 (- e) * pow2 e)) in H1 by ring.
      rewrite H0 in H1. lra. }
    assert (B1 : x * pow2 (- e) <= inject_Z (2 ^ 53)) by (pose proof (Qle_Qabs (x * pow2 (- e))); lra).
    assert (B2 : inject_Z (- 2 ^ 53) <= x * pow2 (- e)).
    { rewrite inject_Z_opp. pose proof (Qle_Qabs (- (x * pow2 (- e)))). rewrite Qabs_opp in H. lra. }
    apply rne_le_int in B1. apply rne_ge_int in B2. lia.
Qed.
Lemma fl_idem x : fl (fl x) == fl x.
Proof. destruct (fl_form x) as (m & e & E & H). exact (fl_exact m e _ E H). Qed.

(** Bounds by doubles. *)
Lemma fl_le_of x y : fl y == y -> x <= y -> fl x <= y.
Proof. intros E L. rewrite <- E. apply fl_mono, L. Qed.
Lemma fl_ge_of x y : fl y == y -> y <= x -> y <= fl x.
Proof. intros E L. rewrite <- E. apply fl_mono, L. Qed.
Lemma fl_le_int x z : (Z.abs z <= 2 ^ 53)%Z -> x <= inject_Z z -> fl x <= inject_Z z.
Proof. intros H. apply fl_le_of, fl_int, H. Qed.
Lemma fl_ge_int x z : (Z.abs z <= 2 ^ 53)%Z -> inject_Z z <= x -> inject_Z z <= fl x.
Proof. intros H. apply fl_ge_of, fl_int, H. Qed.

(** Relative error at most 2^-53. *)
Lemma fl_error x : Qabs (fl x - x) <= Qabs x * pow2 (-53).
Proof.
  destruct (Qeq_dec x 0) as [E|N].
  - rewrite (fl_zero x E), E. cbn. discriminate.
  - rewrite fl_round_at by exact N. destruct (qexp_spec x N) as [S1 _].
    eapply Qle_trans; [apply round_at_err|].
    replace (qexp x - 52)%Z with (qexp x + -53 + 1)%Z by lia. rewrite pow2_succ, pow2_add.
    pose proof (pow2_pos (-53)). nra.
Qed.

(** Rounding is symmetric. *)
Lemma rne_opp x : rne (- x) = (- rne x)%Z.
Proof.
  destruct (Qeq_dec (inject_Z (Qfloor x)) x) as [E|N].
  - rewrite <- (rne_compat _ _ E), rne_int. rewrite <- (rne_compat (inject_Z (- Qfloor x)) (- x)).
    + apply rne_int.
    + rewrite inject_Z_opp, E. reflexivity.
  - pose proof (Qfloor_le x) as F1. pose proof (Qlt_floor x) as F2.
    assert (G : Qfloor (- x) = (- (Qfloor x + 1))%Z).
    { pose proof (Qfloor_le (- x)) as G1. pose proof (Qlt_floor (- x)) as G2. rewrite inject_Z_plus in F2, G2. change (inject_Z 1) with 1 in F2, G2.
      assert (A : (Qfloor (- x) < - Qfloor x)%Z).
      { apply inject_Z_lt_inv. rewrite inject_Z_opp. destruct (Qlt_le_dec (inject_Z (Qfloor x)) x); lra. }
      assert (B : (- (Qfloor x + 1) < Qfloor (- x) + 1)%Z).
      { apply inject_Z_lt_inv. rewrite inject_Z_opp, !inject_Z_plus. change (inject_Z 1) with 1. lra. }
      lia. }
    unfold rne. rewrite G. set (f := Qfloor x) in *.
    assert (R : - x - inject_Z (- (f + 1)) == 1 - (x - inject_Z f)) by (rewrite inject_Z_opp, inject_Z_plus; change (inject_Z 1) with 1; ring).
    destruct (Qcompare_spec (x - inject_Z f) (1 # 2)) as [H|H|H];
      destruct (Qcompare_spec (- x - inject_Z (- (f + 1))) (1 # 2)) as [K|K|K]; rewrite R in K; try lra; try lia.
    rewrite Z.even_opp, Z.even_add. destruct (Z.even f); cbn; lia.
Qed.
Lemma fl_opp x : fl (- x) == - fl x.
Proof.
  destruct (Qeq_dec x 0) as [E|N].
  - rewrite (fl_zero x E), (fl_zero (- x)); [reflexivity | rewrite E; reflexivity].
  - assert (N' : ~ - x == 0) by lra.
    assert (Q1 : qexp (- x) = qexp x).
    { destruct (qexp_spec x N). apply qexp_unique; rewrite Qabs_opp; assumption. }
    rewrite !fl_nonzero, Q1 by assumption.
    assert (E : - x * pow2 (- (qexp x - 52)) == - (x * pow2 (- (qexp x - 52)))) by ring.
    rewrite (rne_compat _ _ E), rne_opp, inject_Z_opp. ring.
Qed.

(** ** Operations *)

#[export] Instance fadd_compat : Proper (Qeq ==> Qeq ==> Qeq) fadd.
Proof. intros a b E c d F. unfold fadd. rewrite E, F. reflexivity. Qed.
#[export] Instance fsub_compat : Proper (Qeq ==> Qeq ==> Qeq) fsub.
Proof. intros a b E c d F. unfold fsub. rewrite E, F. reflexivity. Qed.
#[export] Instance fmul_compat : Proper (Qeq ==> Qeq ==> Qeq) fmul.
Proof. intros a b E c d F. unfold fmul. rewrite E, F. reflexivity. Qed.
#[export] Instance fdiv_compat : Proper (Qeq ==> Qeq ==> Qeq) fdiv.
Proof. intros a b E c d F. unfold fdiv. rewrite E, F. reflexivity. Qed.
#[export] Instance ffloor_compat : Proper (Qeq ==> Qeq) ffloor.
Proof. intros a b E. unfold ffloor. rewrite (Qfloor_comp _ _ E). reflexivity. Qed.
#[export] Instance fceil_compat : Proper (Qeq ==> Qeq) fceil.
Proof. intros a b E. unfold fceil. rewrite (Qceiling_comp _ _ E). reflexivity. Qed.

Lemma fadd_mono a b c d : a <= b -> c <= d -> fadd a c <= fadd b d.
Proof. intros. apply fl_mono. lra. Qed.
Lemma fsub_mono a b c d : a <= b -> d <= c -> fsub a c <= fsub b d.
Proof. intros. apply fl_mono. lra. Qed.
Lemma fmul_mono a b c d : 0 <= a -> a <= b -> 0 <= c -> c <= d -> fmul a c <= fmul b d.
Proof. intros. apply fl_mono. nra. Qed.
Lemma fmul_mono_l a b c : a <= b -> 0 <= c -> fmul a c <= fmul b c.
Proof. intros. apply fl_mono. nra. Qed.
Lemma fmul_mono_r a c d : 0 <= a -> c <= d -> fmul a c <= fmul a d.
Proof. intros. apply fl_mono. nra. Qed.
Lemma Qdiv_mono a b c : 0 < c -> a <= b -> a / c <= b / c.
Proof. intros. unfold Qdiv. apply Qmult_le_compat_r; [assumption|]. apply Qlt_le_weak, Qinv_lt_0_compat. assumption. Qed.
Lemma fdiv_mono a b c : 0 < c -> a <= b -> fdiv a c <= fdiv b c.
Proof. intros. apply fl_mono, Qdiv_mono; assumption. Qed.
Lemma ffloor_mono a b : a <= b -> ffloor a <= ffloor b.
Proof. intros. unfold ffloor. apply inject_Z_le, Qfloor_resp_le. assumption. Qed.
Lemma fceil_mono a b : a <= b -> fceil a <= fceil b.
Proof. intros. unfold fceil. apply inject_Z_le, Qceiling_resp_le. assumption. Qed.
Lemma fmul_nonneg a b : 0 <= a -> 0 <= b -> 0 <= fmul a b.
Proof. intros. apply fl_nonneg. nra. Qed.
Lemma fadd_nonneg a b : 0 <= a -> 0 <= b -> 0 <= fadd a b.
Proof. intros. apply fl_nonneg. lra. Qed.
Lemma fdiv_nonneg a b : 0 <= a -> 0 < b -> 0 <= fdiv a b.
Proof.
  intros. apply fl_nonneg. setoid_replace 0 with (0 / b) by (unfold Qdiv; ring). apply Qdiv_mono; assumption.
Qed.
Lemma ffloor_nonneg a : 0 <= a -> 0 <= ffloor a.
Proof. intros H. apply ffloor_mono in H. exact H. Qed.
Lemma ffloor_le a : ffloor a <= a.
Proof. apply Qfloor_le. Qed.
Lemma ffloor_int z : ffloor (inject_Z z) == inject_Z z.
Proof. unfold ffloor. rewrite Qfloor_Z. reflexivity. Qed.

Lemma qtrunc_mono a b : a <= b -> (qtrunc a <= qtrunc b)%Z.
Proof.
  intros L. unfold qtrunc. destruct (Qle_bool 0 a) eqn:A, (Qle_bool 0 b) eqn:B.
  - apply Qfloor_resp_le, L.
  - apply Qle_bool_iff in A. exfalso. assert (~ 0 <= b) by (intros H; apply Qle_bool_iff in H; congruence). lra.
  - apply Qle_bool_iff in B. assert (NA : ~ 0 <= a) by (intros H; apply Qle_bool_iff in H; congruence).
    assert (Qceiling a <= 0)%Z. { change 0%Z with (Qceiling 0). apply Qceiling_resp_le. lra. }
    assert (0 <= Qfloor b)%Z. { change 0%Z with (Qfloor 0). apply Qfloor_resp_le, B. } lia.
  - apply Qceiling_resp_le, L.
Qed.
Lemma qtrunc_int z : qtrunc (inject_Z z) = z.
Proof.
  unfold qtrunc. destruct (Qle_bool 0 (inject_Z z)); [apply Qfloor_Z|]. unfold Qceiling.
  rewrite <- (Qfloor_comp (inject_Z (- z)) (- inject_Z z)); [rewrite Qfloor_Z; lia|]. rewrite inject_Z_opp. reflexivity.
Qed.
Lemma qtrunc_compat a b : a == b -> qtrunc a = qtrunc b.
Proof. intros E. apply Z.le_antisymm; apply qtrunc_mono; lra. Qed.
Lemma qtrunc_nonneg a : 0 <= a -> qtrunc a = Qfloor a.
Proof. intros H. unfold qtrunc. apply Qle_bool_iff in H. rewrite H. reflexivity. Qed.

Lemma qltb_spec a b : qltb a b = true <-> a < b.
Proof.
  unfold qltb. rewrite negb_true_iff. split; intros H.
  - apply Qnot_le_lt. intros L. apply Qle_bool_iff in L. congruence.
  - destruct (Qle_bool b a) eqn:E; [apply Qle_bool_iff in E; lra | reflexivity].
Qed.
