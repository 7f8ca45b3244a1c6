(** * Forced hits, outcome probabilities, ranges and means (C36-C39) *)

From Coq Require Import ZArith QArith Qround Qabs List String Bool Lia Lqa.
From Verif Require Import Base BaseFacts Float FloatFacts Strings Types Lookup StatusEffect Stats Events DamageBuild Damage SpecHit HitFacts.
Import ListNotations.
Open Scope string_scope.
Open Scope Z_scope.
Local Opaque fl dec.

(** ** C36 *)

Lemma forced_eqb_eq a b : forced_eqb a b = true <-> a = b.
Proof. destruct a, b; cbn; split; (reflexivity || discriminate). Qed.
Lemma forced_dh_in f d m e : forced_dh f d m e = true <-> In f (dh_sources d m e).
Proof.
  unfold forced_dh, dh_sources. rewrite !orb_true_iff, !forced_eqb_eq. cbn. tauto.
Qed.
Lemma forced_crit_in f d m e : forced_crit f d m e = true <-> In f (crit_sources d m e).
Proof.
  unfold forced_crit, crit_sources. rewrite !orb_true_iff, !forced_eqb_eq. cbn. tauto.
Qed.
Lemma forced_dh_not f d m e : forced_dh f d m e = false <-> ~ In f (dh_sources d m e).
Proof. rewrite <- forced_dh_in. destruct (forced_dh f d m e); split; (congruence || reflexivity || intros H; destruct (H eq_refl)). Qed.
Lemma forced_crit_not f d m e : forced_crit f d m e = false <-> ~ In f (crit_sources d m e).
Proof. rewrite <- forced_crit_in. destruct (forced_crit f d m e); split; (congruence || reflexivity || intros H; destruct (H eq_refl)). Qed.

Lemma rate_of_flags base a1 a2 l y n : (y = true <-> In F_YES l) -> (n = true <-> In F_NO l) -> y && n = false ->
  rate_is base a1 a2 l (if y then 1%Q else if n then 0%Q else fadd (fadd base a1) a2).
Proof.
  intros Y N D. destruct y, n; try discriminate.
  - apply rate_forced; [apply Y; reflexivity|]. intros I. apply N in I. discriminate.
  - apply rate_forbidden; [apply N; reflexivity|]. intros I. apply Y in I. discriminate.
  - apply rate_free; intros I; [apply Y in I|apply N in I]; discriminate.
Qed.
Lemma rate_unique base a1 a2 l x y : rate_is base a1 a2 l x -> rate_is base a1 a2 l y -> x = y.
Proof. intros [] []; tauto || reflexivity. Qed.
Lemma rate_consistent base a1 a2 l x : rate_is base a1 a2 l x -> ~ contradictory l.
Proof. intros [] []; tauto. Qed.

Lemma rates_ok st d m e dh crit bonus : crit_rates_and_bonuses st d m e = Ok (dh, crit, bonus) <->
  rate_is (ps_dh_rate st) (ef_dh_rate_add (fst e)) (ef_dh_rate_add (snd e)) (dh_sources d m e) dh
  /\ rate_is (ps_crit_rate st) (ef_crit_rate_add (fst e)) (ef_crit_rate_add (snd e)) (crit_sources d m e) crit
  /\ bonus = ps_crit_bonus st.
Proof.
  unfold crit_rates_and_bonuses.
  pose proof (forced_dh_in F_YES d m e) as A. pose proof (forced_dh_in F_NO d m e) as B.
  pose proof (forced_crit_in F_YES d m e) as C. pose proof (forced_crit_in F_NO d m e) as D.
  destruct (forced_dh F_YES d m e && forced_dh F_NO d m e) eqn:E1.
  { apply andb_true_iff in E1 as [E1 E2]. split; [discriminate|]. intros (R & _). apply rate_consistent in R. destruct R. split; tauto. }
  destruct (forced_crit F_YES d m e && forced_crit F_NO d m e) eqn:E2.
  { apply andb_true_iff in E2 as [E2 E3]. split; [discriminate|]. intros (_ & R & _). apply rate_consistent in R. destruct R. split; tauto. }
  pose proof (rate_of_flags (ps_dh_rate st) (ef_dh_rate_add (fst e)) (ef_dh_rate_add (snd e)) _ _ _ A B E1) as R1.
  pose proof (rate_of_flags (ps_crit_rate st) (ef_crit_rate_add (fst e)) (ef_crit_rate_add (snd e)) _ _ _ C D E2) as R2.
  split.
  - intros [= <- <- <-]. repeat split; assumption.
  - intros (R3 & R4 & ->). rewrite (rate_unique _ _ _ _ _ _ R3 R1), (rate_unique _ _ _ _ _ _ R4 R2). reflexivity.
Qed.
Lemma rates_err st d m e er : crit_rates_and_bonuses st d m e = Err er <->
  er = RuntimeError /\ (contradictory (dh_sources d m e) \/ contradictory (crit_sources d m e)).
Proof.
  unfold crit_rates_and_bonuses, contradictory. rewrite <- !forced_dh_in, <- !forced_crit_in.
  destruct (forced_dh F_YES d m e), (forced_dh F_NO d m e), (forced_crit F_YES d m e), (forced_crit F_NO d m e); cbn;
    split; try discriminate; try (intros [= <-]; split; [reflexivity|tauto]);
    intros (-> & [[? ?]|[? ?]]); (reflexivity || discriminate).
Qed.

(** Whole doubles *)
Lemma floor_of_fl x : (fl (ffloor (fl x)) == ffloor (fl x))%Q.
Proof.
  destruct (fl_form x) as (m & k & E & B). destruct (Z_le_gt_dec 0 k) as [P|P].
  - (* already whole *)
    assert (W : (fl x == inject_Z (m * 2 ^ k))%Q).
    { rewrite E, inject_Z_mult, (pow2_nonneg_eq k P). reflexivity. }
    assert (F : (ffloor (fl x) == fl x)%Q) by (rewrite W; apply ffloor_int).
    rewrite F. apply fl_idem.
  - (* below 2^53 *)
    unfold ffloor. apply fl_int.
    assert (L : (Qabs (fl x) <= inject_Z (2 ^ 53))%Q).
    { rewrite E, Qabs_Qmult. rewrite (Qabs_pos (pow2 k)) by (apply Qlt_le_weak, pow2_pos).
      assert (K : (pow2 k <= 1)%Q) by (change 1%Q with (pow2 0); apply pow2_le; lia).
      assert (M : (Qabs (inject_Z m) <= inject_Z (2 ^ 53))%Q).
      { change (Qabs (inject_Z m)) with (inject_Z (Z.abs m)). apply inject_Z_le. exact B. }
      pose proof (pow2_pos k). pose proof (Qabs_nonneg (inject_Z m)). nra. }
    apply Qabs_Qle_condition in L as [L1 L2]. apply Z.abs_le. split.
    + apply Qfloor_resp_le in L1. rewrite <- inject_Z_opp, Qfloor_Z in L1. exact L1.
    + apply Qfloor_resp_le in L2. rewrite Qfloor_Z in L2. exact L2.
Qed.
Definition whole (b : Q) : Prop := (fl b == b)%Q.
Lemma whole_floor x : whole (ffloor (fl x)).
Proof. apply floor_of_fl. Qed.
Lemma whole_floor2 x : whole (ffloor (ffloor (fl x))).
Proof. unfold whole. unfold ffloor at 1 3. unfold ffloor. rewrite Qfloor_Z. apply floor_of_fl. Qed.

Definition no_rates2 (e : effects2) : effects2 := (no_rates (fst e), no_rates (snd e)).
Lemma class_core c d m st e x : class_damage c d m st e = Ok x ->
  exists b, whole b /\ x = finish_damage st d m e b
    /\ class_damage c (plain d) m st (no_rates2 e) = Ok (finish_damage st (plain d) m (no_rates2 e) b).
Proof.
  destruct e as [e1 e2]. unfold class_damage. cbn [damage_class plain]. destruct (damage_class d).
  1: discriminate.
  - unfold direct_damage. intros H. apply bind_ok in H as (b & Eb & H). injection H as <-. exists b. split; [|split; [reflexivity|]].
    + destruct (uses_strength st); [injection Eb as <-; apply whole_floor|]. apply bind_ok in Eb as (? & _ & Eb). injection Eb as <-. apply whole_floor2.
    + match goal with |- bind ?t _ = _ => assert (E : t = Ok b) by exact Eb; rewrite E end. reflexivity.
  - unfold magical_dot_damage. intros H. apply bind_ok in H as (b & Eb & H). injection H as <-. eexists. split; [|split; [reflexivity|]].
    + apply whole_floor.
    + match goal with |- bind ?t _ = _ => assert (E : t = Ok b) by exact Eb; rewrite E end. reflexivity.
  - unfold physical_dot_damage. intros H. apply bind_ok in H as (b & Eb & H). injection H as <-. eexists. split; [|split; [reflexivity|]].
    + apply whole_floor.
    + match goal with |- bind ?t _ = _ => assert (E : t = Ok b) by exact Eb; rewrite E end. reflexivity.
  - unfold auto_damage. intros H. apply bind_ok in H as (mn & Em & H). apply bind_ok in H as (b & Eb & H). injection H as <-.
    eexists. split; [|split; [reflexivity|]].
    + apply whole_floor.
    + match goal with |- bind ?t _ = _ => assert (E : t = Ok mn) by exact Em; rewrite E end. cbn [bind].
      match goal with |- bind ?t _ = _ => assert (E' : t = Ok b) by exact Eb; rewrite E' end. reflexivity.
  - unfold pet_damage. intros H. apply bind_ok in H as (b & Eb & H). injection H as <-. eexists. split; [|split; [reflexivity|]].
    + apply whole_floor2.
    + match goal with |- bind ?t _ = _ => assert (E : t = Ok b) by exact Eb; rewrite E end. reflexivity.
Qed.

Lemma fmul_0_r a b : (b == 0 -> fmul a b == 0)%Q.
Proof. intros H. unfold fmul. rewrite H, Qmult_0_r. apply fl_0. Qed.
Lemma finish_plain st d m e b : whole b -> (finish_damage st (plain d) m (no_rates2 e) b == b)%Q.
Proof.
  intros W. unfold finish_damage. cbn [single_damage_mult plain].
  assert (Z : (fadd 0 0 == 0)%Q) by apply fl_0.
  assert (D : (dh_bonus_multiplier (plain d) m (no_rates2 e) == 0)%Q).
  { unfold dh_bonus_multiplier. destruct (forced_dh _ _ _ _); [|reflexivity]. apply fmul_0_r. exact Z. }
  assert (Cr : (crit_bonus_multiplier st (plain d) m (no_rates2 e) == 0)%Q).
  { unfold crit_bonus_multiplier. destruct (forced_crit _ _ _ _); [|reflexivity]. apply fmul_0_r. exact Z. }
  rewrite (fmul_0_r b _ D), (fmul_0_r b _ Cr).
  assert (F : (ffloor 0 == 0)%Q) by reflexivity. rewrite F, Z. unfold fmul, fadd. unfold whole in W.
  rewrite Qplus_0_r, W, Qmult_1_r. exact W.
Qed.

Lemma bonus_dh d m e : bonus_is (dec 25 100) (ef_dh_rate_add (fst e)) (ef_dh_rate_add (snd e)) (dh_sources d m e) (dh_bonus_multiplier d m e).
Proof.
  unfold dh_bonus_multiplier. destruct (forced_dh F_YES d m e) eqn:E; [apply bonus_forced, forced_dh_in, E|apply bonus_none, forced_dh_not, E].
Qed.
Lemma bonus_crit st d m e :
  bonus_is (ps_crit_bonus st) (ef_crit_rate_add (fst e)) (ef_crit_rate_add (snd e)) (crit_sources d m e) (crit_bonus_multiplier st d m e).
Proof.
  unfold crit_bonus_multiplier. destruct (forced_crit F_YES d m e) eqn:E; [apply bonus_forced, forced_crit_in, E|apply bonus_none, forced_crit_not, E].
Qed.

Lemma forced_bonus c d m st e x : class_damage c d m st e = Ok x ->
  exists b xd xc,
    class_damage c (plain d) m st (no_rates (fst e), no_rates (snd e)) = Ok b
    /\ bonus_is (dec 25 100) (ef_dh_rate_add (fst e)) (ef_dh_rate_add (snd e)) (dh_sources d m e) xd
    /\ bonus_is (ps_crit_bonus st) (ef_crit_rate_add (fst e)) (ef_crit_rate_add (snd e)) (crit_sources d m e) xc
    /\ (x == fmul (fadd b (fadd (ffloor (fmul b xd)) (ffloor (fmul b xc)))) (single_damage_mult d))%Q.
Proof.
  intros H. apply class_core in H as (b & W & -> & E). eexists _, _, _. split; [exact E|]. split; [apply bonus_dh|].
  split; [apply bonus_crit|]. rewrite (finish_plain st d m e b W). reflexivity.
Qed.

(** ** C37 *)

Lemma qabs_fl_err x : (Qabs (fl x - x) <= pow2 (-53) * Qabs x)%Q.
Proof. rewrite Qmult_comm. apply fl_error. Qed.
Definition eps : Q := pow2 (-53).
Lemma eps_bounds : (0 < eps /\ eps <= 1 # 8)%Q.
Proof. split; [apply pow2_pos|]. unfold eps. vm_compute. discriminate. Qed.

Lemma near_bound x a k : (Qabs (x - a) <= k * Qabs a -> Qabs x <= (1 + k) * Qabs a)%Q.
Proof.
  intros H. assert (T : (Qabs x <= Qabs a + Qabs (x - a))%Q).
  { setoid_replace x with (a + (x - a))%Q at 1 by ring. apply Qabs_triangle. }
  lra.
Qed.
Lemma prod_err x a y b : (Qabs (x - a) <= eps * Qabs a -> Qabs (y - b) <= eps * Qabs b ->
  Qabs (fmul x y - a * b) <= 4 * eps * (Qabs a * Qabs b))%Q.
Proof.
  intros X Y. destruct eps_bounds as [E0 E1]. pose proof (near_bound _ _ _ X) as BX. pose proof (near_bound _ _ _ Y) as BY.
  pose proof (Qabs_nonneg a) as A. pose proof (Qabs_nonneg b) as B. pose proof (Qabs_nonneg x) as A'. pose proof (Qabs_nonneg y) as B'.
  pose proof (Qabs_nonneg (y - b)) as B''. pose proof (Qabs_nonneg (x - a)) as A''.
  assert (F : (Qabs (fmul x y - x * y) <= eps * (Qabs x * Qabs y))%Q).
  { rewrite <- Qabs_Qmult. apply qabs_fl_err. }
  assert (G : (Qabs (x * y - a * b) <= Qabs x * Qabs (y - b) + Qabs b * Qabs (x - a))%Q).
  { rewrite <- !Qabs_Qmult. setoid_replace (x * y - a * b)%Q with (x * (y - b) + b * (x - a))%Q by ring. apply Qabs_triangle. }
  assert (T : (Qabs (fmul x y - a * b) <= Qabs (fmul x y - x * y) + Qabs (x * y - a * b))%Q).
  { setoid_replace (fmul x y - a * b)%Q with ((fmul x y - x * y) + (x * y - a * b))%Q by ring. apply Qabs_triangle. }
  assert (K1 : (Qabs x * Qabs y <= (1 + eps) * Qabs a * ((1 + eps) * Qabs b))%Q).
  { apply Qle_trans with ((1 + eps) * Qabs a * Qabs y)%Q.
    - apply Qmult_le_compat_r; assumption.
    - rewrite (Qmult_comm _ (Qabs y)), (Qmult_comm ((1+eps) * Qabs a)). apply Qmult_le_compat_r; [exact BY|]. nra. }
  assert (K2 : (Qabs x * Qabs (y - b) <= (1 + eps) * Qabs a * (eps * Qabs b))%Q).
  { apply Qle_trans with ((1 + eps) * Qabs a * Qabs (y - b))%Q.
    - apply Qmult_le_compat_r; assumption.
    - rewrite (Qmult_comm _ (Qabs (y - b))), (Qmult_comm ((1+eps) * Qabs a)). apply Qmult_le_compat_r; [exact Y|]. nra. }
  assert (K3 : (Qabs b * Qabs (x - a) <= Qabs b * (eps * Qabs a))%Q).
  { rewrite !(Qmult_comm (Qabs b)). apply Qmult_le_compat_r; assumption. }
  set (P := (Qabs a * Qabs b)%Q) in *. assert (PP : (0 <= P)%Q) by (unfold P; nra).
  assert (S : (Qabs (fmul x y - a * b) <= (eps * ((1 + eps) * (1 + eps)) + (1 + eps) * eps + eps) * P)%Q).
  { unfold P. assert (eps * (Qabs x * Qabs y) <= eps * ((1 + eps) * Qabs a * ((1 + eps) * Qabs b)))%Q.
    { rewrite !(Qmult_comm eps). apply Qmult_le_compat_r; [exact K1|lra]. }
    lra. }
  apply Qle_trans with (1 := S). apply Qmult_le_compat_r; [|exact PP].
  assert (X1 : (eps * eps <= eps * (1#8))%Q) by nra. assert (X2 : (eps * eps * eps <= eps * (1#8) * (1#8))%Q) by nra. lra.
Qed.
Lemma self_err a : (Qabs (a - a) <= eps * Qabs a)%Q.
Proof.
  setoid_replace (a - a)%Q with 0%Q by ring. change (Qabs 0) with 0%Q. destruct eps_bounds. pose proof (Qabs_nonneg a). nra.
Qed.

Lemma four_sum p1 p2 p3 p4 : (p1 + (p2 + (p3 + (p4 + 0))) == p1 + p2 + p3 + p4)%Q.
Proof. ring. Qed.
Lemma pow2_51 : (4 * eps == pow2 (-51))%Q.
Proof. reflexivity. Qed.

Lemma probs_sum r u : let c := r_crit_rate r in let d := r_dh_rate r in
  (Qabs (total_prob (row_outcomes r u) - 1) <= pow2 (-51) * ((Qabs c + Qabs (1 - c)) * (Qabs d + Qabs (1 - d))))%Q.
Proof.
  cbv zeta. set (c := r_crit_rate r). set (d := r_dh_rate r). unfold total_prob, row_outcomes, qsum. cbn [map fold_right o_prob].
  fold c d. pose proof (qabs_fl_err (1 - c)) as EC. pose proof (qabs_fl_err (1 - d)) as ED.
  pose proof (prod_err _ _ _ _ EC ED) as P1. pose proof (prod_err _ _ _ _ (self_err c) ED) as P2.
  pose proof (prod_err _ _ _ _ EC (self_err d)) as P3. pose proof (prod_err _ _ _ _ (self_err c) (self_err d)) as P4.
  fold (fsub 1 c) (fsub 1 d) in *.
  set (p1 := fmul (fsub 1 c) (fsub 1 d)) in *. set (p2 := fmul c (fsub 1 d)) in *. set (p3 := fmul (fsub 1 c) d) in *. set (p4 := fmul c d) in *.
  rewrite <- pow2_51.
  setoid_replace (p1 + (p2 + (p3 + (p4 + 0))) - 1)%Q with
    ((p1 - (1 - c) * (1 - d)) + ((p2 - c * (1 - d)) + ((p3 - (1 - c) * d) + (p4 - c * d))))%Q by ring.
  eapply Qle_trans; [apply Qabs_triangle|]. 
  pose proof (Qabs_triangle (p2 - c * (1 - d)) ((p3 - (1 - c) * d) + (p4 - c * d))) as T1.
  pose proof (Qabs_triangle (p3 - (1 - c) * d) (p4 - c * d)) as T2.
  setoid_replace (4 * eps * ((Qabs c + Qabs (1 - c)) * (Qabs d + Qabs (1 - d))))%Q with
    (4 * eps * (Qabs (1 - c) * Qabs (1 - d)) + (4 * eps * (Qabs c * Qabs (1 - d)) + (4 * eps * (Qabs (1 - c) * Qabs d) + 4 * eps * (Qabs c * Qabs d))))%Q by ring.
  lra.
Qed.
Lemma probs_sum_unit r u : in_unit (r_crit_rate r) -> in_unit (r_dh_rate r) ->
  (Qabs (total_prob (row_outcomes r u) - 1) <= pow2 (-51))%Q.
Proof.
  intros [A B] [C D]. pose proof (probs_sum r u) as H. cbv zeta in H.
  rewrite (Qabs_pos (r_crit_rate r)), (Qabs_pos (r_dh_rate r)), (Qabs_pos (1 - r_crit_rate r)), (Qabs_pos (1 - r_dh_rate r)) in H by lra.
  eapply Qle_trans; [exact H|].
  setoid_replace (pow2 (-51) * ((r_crit_rate r + (1 - r_crit_rate r)) * (r_dh_rate r + (1 - r_dh_rate r))))%Q with (pow2 (-51)) by ring.
  apply Qle_refl.
Qed.
Lemma fsub_unit c : in_unit c -> in_unit (fsub 1 c).
Proof. intros [A B]. split; [apply fl_nonneg; lra|]. apply (fl_le_int _ 1); [lia|]. change (inject_Z 1) with 1%Q. lra. Qed.
Lemma fmul_unit a b : in_unit a -> in_unit b -> in_unit (fmul a b).
Proof. intros [A B] [C D]. split; [apply fmul_nonneg; assumption|]. apply (fl_le_int _ 1); [lia|]. change (inject_Z 1) with 1%Q. nra. Qed.
Lemma probs_unit r u o : in_unit (r_crit_rate r) -> in_unit (r_dh_rate r) -> In o (row_outcomes r u) -> in_unit (o_prob o).
Proof.
  intros A B I. pose proof (fsub_unit _ A). pose proof (fsub_unit _ B).
  unfold row_outcomes in I. cbn [In] in I. destruct I as [<-|[<-|[<-|[<-|[]]]]]; cbn [o_prob]; apply fmul_unit; assumption.
Qed.
Lemma fmul_neg a b : (a * b < 0 -> fmul a b < 0)%Q.
Proof. apply fl_neg. Qed.
Lemma probs_negative r u : ~ (in_unit (r_crit_rate r) /\ in_unit (r_dh_rate r)) -> exists o, In o (row_outcomes r u) /\ (o_prob o < 0)%Q.
Proof.
  intros N. set (c := r_crit_rate r) in *. set (d := r_dh_rate r) in *.
  assert (X : ((c < 0 \/ 1 < c) \/ (d < 0 \/ 1 < d))%Q).
  { destruct (Qlt_le_dec c 0); [auto|]. destruct (Qlt_le_dec 1 c); [auto|]. destruct (Qlt_le_dec d 0); [auto|]. destruct (Qlt_le_dec 1 d); [auto|].
    destruct N. repeat split; assumption. }
  assert (PC : (0 < c \/ 0 < 1 - c)%Q) by (destruct (Qlt_le_dec 0 c); [auto|right; lra]).
  assert (PD : (0 < d \/ 0 < 1 - d)%Q) by (destruct (Qlt_le_dec 0 d); [auto|right; lra]).
  assert (I : forall a b, (a = c \/ a = fsub 1 c) -> (b = d \/ b = fsub 1 d) -> exists o, In o (row_outcomes r u) /\ o_prob o = fmul a b).
  { intros a b [->| ->] [->| ->]; unfold row_outcomes; fold c d; eexists; (split; [cbn [In]|]).
    - right; right; right; left; reflexivity. - reflexivity.
    - right; left; reflexivity. - reflexivity.
    - right; right; left; reflexivity. - reflexivity.
    - left; reflexivity. - reflexivity. }
  assert (K : exists a b, (a = c \/ a = fsub 1 c) /\ (b = d \/ b = fsub 1 d) /\ (a * b < 0)%Q).
  { destruct X as [X|X].
    - assert (NA : exists a, (a = c \/ a = fsub 1 c) /\ (a < 0)%Q).
      { destruct X as [X|X]; [exists c|exists (fsub 1 c)]; split; auto. apply fl_neg. lra. }
      destruct NA as (a & Ha & La). destruct PD as [P|P]; [exists a, d|exists a, (fsub 1 d)]; repeat split; auto; [nra|].
      apply fl_pos in P. fold (fsub 1 d) in P. nra.
    - assert (NB : exists b, (b = d \/ b = fsub 1 d) /\ (b < 0)%Q).
      { destruct X as [X|X]; [exists d|exists (fsub 1 d)]; split; auto. apply fl_neg. lra. }
      destruct NB as (b & Hb & Lb). destruct PC as [P|P]; [exists c, b|exists (fsub 1 c), b]; repeat split; auto; [nra|].
      apply fl_pos in P. fold (fsub 1 c) in P. nra. }
  destruct K as (a & b & Ha & Hb & L). destruct (I a b Ha Hb) as (o & Io & Eo). exists o. split; [exact Io|]. rewrite Eo. apply fmul_neg, L.
Qed.

(** ** C38 *)

(** Damage after the roll [t0]. *)
Definition after_roll (r : row) (t0 : Q) (crit dh : bool) : Q :=
  let t1 := fadd t0 (ffloor (fmul t0 (fmul (r_crit_bonus r) (qbool crit)))) in
  let t2 := fadd t1 (ffloor (fmul t1 (fmul DH_DAMAGE_MULT_BONUS (qbool dh)))) in
  ffloor (fmul (ffloor (fmul t2 (r_trait r))) (r_mult r)).
Lemma qbool_nonneg b : (0 <= qbool b)%Q.
Proof. destruct b; cbn; lra. Qed.
Lemma after_roll_btw r t t' crit dh : row_nonneg r -> btw t t' -> btw (after_roll r t crit dh) (after_roll r t' crit dh).
Proof.
  intros (_ & A & B & C) T. unfold after_roll. cbv zeta.
  assert (X : btw (fmul (r_crit_bonus r) (qbool crit)) (fmul (r_crit_bonus r) (qbool crit))) by (apply btw_same, fmul_nonneg; [exact A|apply qbool_nonneg]).
  assert (Y : btw (fmul DH_DAMAGE_MULT_BONUS (qbool dh)) (fmul DH_DAMAGE_MULT_BONUS (qbool dh)))
    by (apply btw_same, fmul_nonneg; [apply dec_nonneg; lia|apply qbool_nonneg]).
  apply btw_ffloor, btw_fmul; [|apply btw_same, C]. apply btw_ffloor, btw_fmul; [|apply btw_same, B].
  apply btw_fadd; [apply btw_fadd; [exact T|apply btw_ffloor, btw_fmul; assumption]|].
  apply btw_ffloor, btw_fmul; [|exact Y]. apply btw_fadd; [exact T|apply btw_ffloor, btw_fmul; assumption].
Qed.

Lemma start_whole init u0 : whole init -> (exists z, init = inject_Z z) ->
  (ffloor (fmul init (fadd (fsub 1 (fdiv 0 (q 2))) (fmul 0 u0))) == init)%Q.
Proof.
  intros W (z & E). assert (Z0 : (fdiv 0 (q 2) == 0)%Q) by reflexivity. 
  assert (Z1 : (fmul 0 u0 == 0)%Q). { unfold fmul. rewrite Qmult_0_l. apply fl_0. }
  assert (Z2 : (fsub 1 (fdiv 0 (q 2)) == 1)%Q). { unfold fsub. rewrite Z0. setoid_replace (1 - 0)%Q with 1%Q by ring. apply fl_1. }
  unfold fadd. rewrite Z1, Z2, Qplus_0_r, fl_1. unfold fmul. rewrite Qmult_1_r. unfold whole in W. rewrite W, E. apply ffloor_int.
Qed.
Lemma init_whole k b : whole (ffloor (fmul k b)) /\ exists z, ffloor (fmul k b) = inject_Z z.
Proof. split; [apply whole_floor|]. unfold ffloor. eauto. Qed.

Lemma Qle_bool_false a b : Qle_bool a b = false <-> (b < a)%Q.
Proof.
  split; intros H.
  - destruct (Qlt_le_dec b a) as [L|L]; [exact L|]. apply Qle_bool_iff in L. congruence.
  - destruct (Qle_bool a b) eqn:E; [|reflexivity]. apply Qle_bool_iff in E. lra.
Qed.
Definition rate_for (b : bool) : Q := if b then 1%Q else 0%Q.
Lemma draw_as_asked b x : (0 < x < 1)%Q -> Qle_bool x (rate_for b) = b.
Proof. intros [A B]. destruct b; cbn; [apply Qle_bool_iff; lra|apply Qle_bool_false; exact A]. Qed.

Lemma range_end_spec r k crit dh u : drawn u -> not_zero u ->
  exists t0, (t0 == ffloor (fmul k (r_base r)))%Q /\ range_end r (ffloor (fmul k (r_base r))) (rate_for crit) (rate_for dh) u = after_roll r t0 crit dh.
Proof.
  destruct u as [[u0 u1] u2]. intros (A & B & C) (D & E). unfold range_end, get_damage.
  rewrite !draw_as_asked by (split; [assumption|apply B || apply C]). eexists. split; [|reflexivity].
  destruct (init_whole k (r_base r)) as [W Z]. apply start_whole; assumption.
Qed.

Lemma consts_95 : (fsub 1 (fdiv (dec 1 10) (q 2)) == dec 95 100 /\ fadd (dec 95 100) (dec 1 10) <= dec 105 100 /\ 0 <= dec 95 100)%Q.
Proof. repeat split; vm_compute; congruence. Qed.

Lemma dec_double n d : (fl (dec n d) == dec n d)%Q.
Proof. Local Transparent dec. unfold dec. Local Opaque dec. exact (fl_idem (n # d)). Qed.
Lemma roll_gen lo rng hi low u0 : (low == lo -> fadd lo rng <= hi -> fl lo == lo -> fl rng == rng -> 0 <= rng -> 0 <= u0 < 1 ->
  lo <= fadd low (fmul rng u0) <= hi)%Q.
Proof.
  intros E U I J N [A B]. split.
  - apply (fl_ge_of _ _ I). rewrite E. pose proof (fmul_nonneg rng u0 N A). lra.
  - eapply Qle_trans; [|exact U]. apply fl_mono. rewrite E. assert (fmul rng u0 <= rng)%Q; [|lra].
    apply (fl_le_of _ _ J). nra.
Qed.
Lemma roll_bounds u0 : (0 <= u0 < 1)%Q ->
  (dec 95 100 <= fadd (fsub 1 (fdiv (dec 1 10) (q 2))) (fmul (dec 1 10) u0) <= dec 105 100)%Q.
Proof.
  intros H. destruct consts_95 as (E & U & L). assert (N : (0 <= dec 1 10)%Q) by (apply dec_nonneg; lia).
  exact (roll_gen _ _ _ _ _ E U (dec_double 95 100) (dec_double 1 10) N H).
Qed.

Lemma sample_spec r u d crit dh : row_nonneg r -> drawn u -> sample_cell r u = (d, crit, dh) ->
  exists t, d = after_roll r t crit dh /\ btw (low_init r) t /\ btw t (high_init r).
Proof.
  destruct u as [[u0 u1] u2]. intros (B & _) (A & _) H. unfold sample_cell, get_damage in H. injection H as <- <- <-.
  eexists. split; [reflexivity|]. destruct (roll_bounds u0 A) as [L U]. destruct consts_95 as (_ & _ & N).
  assert (LB : btw (low_init r) (ffloor (fmul (r_base r) (fadd (fsub 1 (fdiv (dec 1 10) (q 2))) (fmul (dec 1 10) u0))))).
  { unfold low_init. apply btw_ffloor. split; [apply fmul_nonneg; assumption|]. apply fl_mono. nra. }
  split; [exact LB|]. split; [apply (btw_nonneg' _ _ LB)|]. unfold high_init. apply ffloor_mono, fl_mono. nra.
Qed.

Lemma in_outcomes r u o : In o (row_outcomes r u) ->
  exists crit dh i, (i < 4)%nat /\ o_label o = label_of crit dh
    /\ o_low o = range_end r (low_init r) (rate_for crit) (rate_for dh) (u (2 * i)%nat)
    /\ o_high o = range_end r (high_init r) (rate_for crit) (rate_for dh) (u (2 * i + 1)%nat).
Proof.
  unfold row_outcomes. cbn [In]. intros [<-|[<-|[<-|[<-|[]]]]].
  - exists false, false, 0%nat. repeat split. lia.
  - exists true, false, 1%nat. repeat split. lia.
  - exists false, true, 2%nat. repeat split. lia.
  - exists true, true, 3%nat. repeat split. lia.
Qed.
Lemma label_inj a b c d : label_of a b = label_of c d -> a = c /\ b = d.
Proof. destruct a, b, c, d; cbn; (discriminate || auto). Qed.
#[local] Instance after_roll_compat : forall r, Proper (Qeq ==> eq ==> eq ==> Qeq) (after_roll r).
Proof. intros r t t' E ? b -> ? c ->. unfold after_roll. cbv zeta. rewrite E. reflexivity. Qed.

Lemma range_ok r (u : nat -> draws) : (forall i, (i < 8)%nat -> drawn (u i) /\ not_zero (u i)) -> forall o, In o (row_outcomes r u) ->
  exists crit dh, o_label o = label_of crit dh
    /\ (o_low o == after_roll r (low_init r) crit dh)%Q /\ (o_high o == after_roll r (high_init r) crit dh)%Q.
Proof.
  intros D o I. destruct (in_outcomes r u o I) as (crit & dh & i & Li & EL & E1 & E2). exists crit, dh. split; [exact EL|].
  destruct (D (2 * i)%nat ltac:(lia)) as [A1 A2]. destruct (D (2 * i + 1)%nat ltac:(lia)) as [B1 B2].
  destruct (range_end_spec r (dec 95 100) crit dh _ A1 A2) as (t & Et & F1). destruct (range_end_spec r (dec 105 100) crit dh _ B1 B2) as (t' & Et' & F2).
  unfold low_init, high_init in *. rewrite E1, F1, E2, F2, Et, Et'. split; reflexivity.
Qed.
Lemma sampled_in_range r u v d crit dh : row_nonneg r -> (forall i, (i < 8)%nat -> drawn (u i) /\ not_zero (u i)) -> drawn v ->
  sample_cell r v = (d, crit, dh) ->
  forall o, In o (row_outcomes r u) -> o_label o = label_of crit dh -> (o_low o <= d <= o_high o)%Q.
Proof.
  intros N D V H o I L. destruct (sample_spec r v d crit dh N V H) as (t & -> & B1 & B2).
  destruct (range_ok r u D o I) as (crit' & dh' & L' & E1 & E2). rewrite L in L'. apply label_inj in L' as [<- <-].
  rewrite E1, E2. split; apply btw_le, after_roll_btw; assumption.
Qed.
Lemma label_listed r u crit dh : exists o, In o (row_outcomes r u) /\ o_label o = label_of crit dh.
Proof. destruct crit, dh; unfold row_outcomes; cbn; eauto 10. Qed.
Lemma sample_nonneg r v d crit dh : row_nonneg r -> drawn v -> sample_cell r v = (d, crit, dh) -> (0 <= d)%Q.
Proof.
  intros N V H. destruct (sample_spec r v d crit dh N V H) as (t & -> & B1 & B2). apply (btw_nonneg _ (after_roll r t crit dh)).
  apply after_roll_btw; [exact N|]. apply btw_same, (btw_nonneg _ _ B2).
Qed.

(** ** C39 *)

Lemma low_high_init r : row_nonneg r -> btw (low_init r) (high_init r).
Proof.
  intros (B & _). destruct consts_95 as (_ & U & N). apply btw_ffloor. split; [apply fmul_nonneg; assumption|]. apply fl_mono.
  assert (dec 95 100 <= dec 105 100)%Q; [|nra]. vm_compute. discriminate.
Qed.
Lemma range_ordered r u : row_nonneg r -> (forall i, (i < 8)%nat -> drawn (u i) /\ not_zero (u i)) -> forall o, In o (row_outcomes r u) ->
  (0 <= o_low o <= o_high o)%Q.
Proof.
  intros N D o I. destruct (range_ok r u D o I) as (crit & dh & _ & E1 & E2). rewrite E1, E2.
  pose proof (after_roll_btw r _ _ crit dh N (low_high_init r N)) as [A B]. split; assumption.
Qed.

Lemma half x : (x / 2 == x * (1 # 2))%Q.
Proof. field. Qed.
Lemma twelfth x : (x / 12 == x * (1 # 12))%Q.
Proof. field. Qed.
Lemma expected_low l m : (forall o, In o l -> 0 <= o_prob o /\ m <= o_low o /\ o_low o <= o_high o)%Q -> (m * total_prob l <= expected_of l)%Q.
Proof.
  induction l as [|o l IH]; intros H; [unfold total_prob, expected_of; cbn; lra|].
  destruct (H o (or_introl eq_refl)) as (P & A & B). specialize (IH (fun x Hx => H x (or_intror Hx))).
  unfold total_prob, expected_of, qsum in *. cbn [map fold_right].
  set (s := fold_right Qplus 0%Q (map o_prob l)) in *. set (t := fold_right Qplus 0%Q (map (fun o => o_prob o * o_mean o)%Q l)) in *.
  assert (X : (m <= o_mean o)%Q) by (unfold o_mean; rewrite half; lra).
  assert (m * o_prob o <= o_mean o * o_prob o)%Q by (apply Qmult_le_compat_r; assumption). lra.
Qed.
Lemma expected_high l m : (forall o, In o l -> 0 <= o_prob o /\ o_high o <= m /\ o_low o <= o_high o)%Q -> (expected_of l <= m * total_prob l)%Q.
Proof.
  induction l as [|o l IH]; intros H; [unfold total_prob, expected_of; cbn; lra|].
  destruct (H o (or_introl eq_refl)) as (P & A & B). specialize (IH (fun x Hx => H x (or_intror Hx))).
  unfold total_prob, expected_of, qsum in *. cbn [map fold_right].
  set (s := fold_right Qplus 0%Q (map o_prob l)) in *. set (t := fold_right Qplus 0%Q (map (fun o => o_prob o * o_mean o)%Q l)) in *.
  assert (X : (o_mean o <= m)%Q) by (unfold o_mean; rewrite half; lra).
  assert (o_mean o * o_prob o <= m * o_prob o)%Q by (apply Qmult_le_compat_r; assumption). lra.
Qed.

(** Cauchy-Schwarz for weighted sums. *)
Definition sq_sum (l : list outcome) : Q := qsum (map (fun o => o_prob o * (o_mean o * o_mean o))%Q l).
Lemma spread_shift l a : (qsum (map (fun o => o_prob o * ((o_mean o - a) * (o_mean o - a))) l)
   == sq_sum l - 2 * a * expected_of l + a * a * total_prob l)%Q.
Proof.
  induction l as [|o l IH]; [unfold sq_sum, expected_of, total_prob; cbn; ring|].
  unfold sq_sum, expected_of, total_prob, qsum in *. cbn [map fold_right]. rewrite IH. ring.
Qed.
Lemma qsum_nonneg {A} (f : A -> Q) l : (forall x, In x l -> 0 <= f x)%Q -> (0 <= qsum (map f l))%Q.
Proof.
  induction l as [|x l IH]; intros H; cbn; [lra|]. specialize (IH (fun y Hy => H y (or_intror Hy))). pose proof (H x (or_introl eq_refl)).
  unfold qsum in IH. lra.
Qed.
Lemma square_nonneg x : (0 <= x * x)%Q.
Proof. nra. Qed.
Lemma spread_nonneg l a : (forall o, In o l -> 0 <= o_prob o)%Q ->
  (0 <= sq_sum l - 2 * a * expected_of l + a * a * total_prob l)%Q.
Proof.
  intros P. rewrite <- spread_shift. apply qsum_nonneg. intros o I. pose proof (P o I). pose proof (square_nonneg (o_mean o - a)). nra.
Qed.
Lemma variance_low l : (forall o, In o l -> 0 <= o_prob o)%Q -> 
  ((1 - total_prob l) * (expected_of l * expected_of l) <= variance_of l)%Q.
Proof.
  intros P. pose proof (spread_nonneg l (expected_of l) P) as S.
  assert (U : (0 <= qsum (map (fun o => o_prob o * (o_diff o * o_diff o)) l) / 12)%Q).
  { assert (0 <= qsum (map (fun o => o_prob o * (o_diff o * o_diff o)) l))%Q; [|rewrite twelfth; lra].
    apply qsum_nonneg. intros o I. pose proof (P o I). pose proof (square_nonneg (o_diff o)). nra. }
  unfold variance_of. fold (sq_sum l). lra.
Qed.

Definition fair_draws (u : nat -> draws) : Prop := forall i, (i < 8)%nat -> drawn (u i) /\ not_zero (u i).
Lemma expected_within r u lo hi : row_nonneg r -> in_unit (r_crit_rate r) -> in_unit (r_dh_rate r) -> fair_draws u ->
  (forall o, In o (row_outcomes r u) -> 0 <= lo <= o_low o /\ o_high o <= hi)%Q ->
  (lo * (1 - pow2 (-51)) <= expected_of (row_outcomes r u) <= hi * (1 + pow2 (-51)))%Q.
Proof.
  intros N A B D H. pose proof (probs_sum_unit r u A B) as S. apply Qabs_Qle_condition in S as [S1 S2].
  pose proof (expected_low (row_outcomes r u) lo) as L. pose proof (expected_high (row_outcomes r u) hi) as U.
  set (s := total_prob (row_outcomes r u)) in *. set (x := expected_of (row_outcomes r u)) in *.
  assert (I0 : exists o, In o (row_outcomes r u)) by (unfold row_outcomes; cbn; eauto). destruct I0 as (o & Io).
  destruct (H o Io) as [[L0 L1] U1]. destruct (range_ordered r u N D o Io) as [O1 O2].
  split.
  - eapply Qle_trans; [|apply L].
    + rewrite !(Qmult_comm lo). apply Qmult_le_compat_r; [lra|exact L0].
    + intros o' I. destruct (H o' I) as [[_ ?] ?]. destruct (range_ordered r u N D o' I). destruct (probs_unit r u o' A B I). repeat split; assumption.
  - eapply Qle_trans; [apply U|].
    + intros o' I. destruct (H o' I) as [[_ ?] ?]. destruct (range_ordered r u N D o' I). destruct (probs_unit r u o' A B I). repeat split; assumption.
    + rewrite !(Qmult_comm hi). apply Qmult_le_compat_r; lra.
Qed.
Lemma variance_within r u : in_unit (r_crit_rate r) -> in_unit (r_dh_rate r) ->
  (- pow2 (-51) * (expected_of (row_outcomes r u) * expected_of (row_outcomes r u)) <= variance_of (row_outcomes r u))%Q.
Proof.
  intros A B. pose proof (probs_sum_unit r u A B) as S. apply Qabs_Qle_condition in S as [S1 S2].
  eapply Qle_trans; [|apply variance_low; intros o I; apply (probs_unit r u o A B I)].
  apply Qmult_le_compat_r; [|apply square_nonneg]. lra.
Qed.
