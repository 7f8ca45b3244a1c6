(** * Facts about imports and analyses *)

From Coq Require Import ZArith QArith Qround Qabs List String Bool Lia Lqa Sorted.
From Verif Require Import Base BaseFacts Float FloatFacts Strings Types Stats Library Events Rotation Csv SpecCond CondFacts SpecRun
  RunProps ApiFacts DotFacts SpecCsv.
Import ListNotations.
Open Scope string_scope.
Open Scope Z_scope.
Local Opaque fl.

Lemma Forall2_impl {A B} (P Q : A -> B -> Prop) l l' :
  (forall a b, P a b -> Q a b) -> Forall2 P l l' -> Forall2 Q l l'.
Proof. induction 2; constructor; auto. Qed.
Lemma same_settings_trans a b c : same_settings a b -> same_settings b c -> same_settings a c.
Proof. unfold same_settings. intuition congruence. Qed.
Lemma same_settings_refl a : same_settings a a.
Proof. repeat split. Qed.

Definition read_row (r : csv_row) : rotation_csv :=
  mkRotCsv (cr_time r) (cr_skill r) (none_if_empty (cr_job r)) (cr_cond r)
    (match cr_targets r with Some s => none_if_empty s | None => None end).
Lemma read_rows file : read_rotation file = map read_row (rows_of file).
Proof. destruct file; reflexivity. Qed.

Lemma job_cell b cell : match none_if_empty cell with Some j => j | None => st_job (b_stats b) end = job_of_cell b cell.
Proof. destruct cell; reflexivity. Qed.
Lemma targets_cell b cell :
  match match cell with Some s => none_if_empty s | None => None end with Some s => s | None => b_default_target b end
  = targets_of_cell b cell.
Proof. destruct cell as [[|]|]; reflexivity. Qed.

Lemma add_row b r b' : add_csv_row b (read_row r) = Ok b' ->
  exists x, b_timed b' = (b_timed b ++ [x])%list /\ b_sequence b' = b_sequence b /\ same_settings b b' /\ pressed_by_row b r x.
Proof.
  unfold add_csv_row. intros H. apply add_spec in H as (x & T & S & SS & Tr & J & G & Mo & Md & Tg).
  cbn [read_row rc_time rc_skill rc_job rc_cond rc_targets] in *.
  exists x. split; [exact T|]. split; [exact S|]. split; [exact SS|].
  rewrite job_cell in J. rewrite targets_cell in Tg.
  split; [exact Tr|]. split; [exact J|]. split; [exact G|]. split; [|split].
  - intros E. rewrite E in Md. apply Md. reflexivity.
  - intros E. assert (M : csv_modifier (cr_cond r) = Some (modifier_with (cr_cond r))) by (destruct (cr_cond r); [congruence | reflexivity]).
    rewrite (Mo _ M). split; [repeat split | apply canonicalize_named].
  - exact Tg.
Qed.

Lemma pressed_same b b' r x : same_settings b b' -> pressed_by_row b' r x -> pressed_by_row b r x.
Proof.
  intros (S1 & S2 & _ & _ & _ & _ & _ & S8 & _) (H1 & H2 & H3 & H4 & H5 & H6).
  unfold pressed_by_row, job_of_cell, targets_of_cell, default_for in *. rewrite S1, S2, S8 in *. auto 10.
Qed.

Theorem populate_presses b file b' : populate_rotation b file = Ok b' ->
  exists xs, b_timed b' = (b_timed b ++ xs)%list /\ b_sequence b' = b_sequence b /\ same_settings b b'
    /\ Forall2 (pressed_by_row b) (rows_of file) xs.
Proof.
  unfold populate_rotation. rewrite read_rows. generalize (rows_of file) as rows. intros rows. revert b.
  induction rows as [|r rows IH]; intros b H; cbn [map foldM] in H.
  - injection H as <-. exists []. rewrite app_nil_r. repeat split. constructor.
  - inv_bind H. rename a into b1, E into E1. apply add_row in E1 as (x & T & S & SS & P).
    apply IH in H as (xs & T' & S' & SS' & F). exists (x :: xs).
    split; [rewrite T', T, <- app_assoc; reflexivity|]. split; [congruence|]. split; [eapply same_settings_trans; eassumption|].
    constructor; [exact P|]. eapply Forall2_impl; [|exact F]. intros; eapply pressed_same; eassumption.
Qed.

Lemma populate_total b file :
  (forall r, In r (rows_of file) -> row_known b r) -> exists b', populate_rotation b file = Ok b'.
Proof.
  unfold populate_rotation. rewrite read_rows. generalize (rows_of file) as rows. intros rows. revert b.
  induction rows as [|r rows IH]; intros b K; cbn [map foldM]; [eauto|].
  destruct (K r (or_introl eq_refl)) as (s & G).
  destruct (unknown_skill b (cr_time r) (cr_skill r) (csv_modifier (cr_cond r)) (none_if_empty (cr_job r))
              (match cr_targets r with Some s => none_if_empty s | None => None end) 0) as [(_ & (b1 & E) & _)|(F & _)].
  2: { rewrite job_cell in F. congruence. }
  unfold add_csv_row at 1. cbn [read_row rc_time rc_skill rc_job rc_cond rc_targets]. rewrite E. cbn [bind].
  apply IH. intros r' Hr'. destruct (K r' (or_intror Hr')) as (s' & G'). exists s'.
  apply add_spec in E as (x & _ & _ & SS & _). destruct SS as (S1 & S2 & _).
  unfold job_of_cell in *. rewrite S1, S2. exact G'.
Qed.
Lemma populate_unknown b file r :
  In r (rows_of file) -> ~ row_known b r -> populate_rotation b file = Err KeyError.
Proof.
  unfold populate_rotation. rewrite read_rows. generalize (rows_of file) as rows. intros rows. revert b.
  induction rows as [|r' rows IH]; intros b I N; cbn [map foldM]; [destruct I|].
  unfold add_csv_row at 1. cbn [read_row rc_time rc_skill rc_job rc_cond rc_targets].
  destruct (unknown_skill b (cr_time r') (cr_skill r') (csv_modifier (cr_cond r')) (none_if_empty (cr_job r'))
              (match cr_targets r' with Some s => none_if_empty s | None => None end) 0) as [((s & G) & (b1 & E) & _)|(_ & -> & _)].
  2: reflexivity.
  rewrite E. cbn [bind]. destruct I as [<-|I].
  - exfalso. apply N. exists s. rewrite <- job_cell. exact G.
  - apply IH; [exact I|]. intros (s' & G'). apply N. exists s'.
    apply add_spec in E as (x & _ & _ & SS & _). destruct SS as (S1 & S2 & _).
    unfold job_of_cell in *. rewrite S1, S2 in G'. exact G'.
Qed.

(** ** Party skills *)

Lemma party_add b p m b' : add b (ps_time p) (ps_name p) m (Some (ps_job p)) None = Ok b' ->
  exists x, b_timed b' = (b_timed b ++ [x])%list /\ b_sequence b' = b_sequence b /\ same_settings b b' /\ pressed_by_party b p x
    /\ (forall m', m = Some m' -> tm_modifier x = m') /\ (m = None -> default_for b (tm_skill x) (tm_job x) (tm_modifier x)).
Proof.
  intros H. apply add_spec in H as (x & T & S & SS & Tr & J & G & Mo & Md & Tg).
  exists x. split; [exact T|]. split; [exact S|]. split; [exact SS|]. split; [|split; assumption].
  split; [exact Tr|]. split; [exact J|]. split; [rewrite <- J; exact G | exact Tg].
Qed.
Lemma party_same b b' p x : same_settings b b' -> pressed_by_party b' p x -> pressed_by_party b p x.
Proof.
  intros (S1 & S2 & _ & _ & _ & _ & _ & S8 & _) (H1 & H2 & H3 & H4).
  unfold pressed_by_party. rewrite S2, S8 in *. auto.
Qed.
Lemma default_same b b' s j m : same_settings b b' -> default_for b' s j m -> default_for b s j m.
Proof. intros (S1 & _) H. unfold default_for in *. rewrite S1 in H. exact H. Qed.
Lemma add_party b p b' : add_party_skill b p = Ok b' ->
  exists xs, b_timed b' = (b_timed b ++ xs)%list /\ b_sequence b' = b_sequence b /\ same_settings b b' /\ party_presses b p xs.
Proof.
  unfold add_party_skill, party_presses. intros H. inv_bind H. rename a into b1, E into E1.
  apply party_add in H as (y & T & S & SS & P & _ & D). specialize (D eq_refl).
  destruct (ps_modifier p) as [m|].
  - apply party_add in E1 as (x & T1 & S1 & SS1 & P1 & M1 & _). exists [x; y].
    split; [rewrite T, T1, <- app_assoc; reflexivity|]. split; [congruence|]. split; [eapply same_settings_trans; eassumption|].
    exists x, y. split; [reflexivity|]. split; [exact P1|]. split; [apply M1; reflexivity|].
    split; [eapply party_same; eassumption | eapply default_same; eassumption].
  - injection E1 as <-. exists [y]. split; [exact T|]. split; [exact S|]. split; [exact SS|].
    exists y. auto.
Qed.
Lemma party_presses_same b b' p xs : same_settings b b' -> party_presses b' p xs -> party_presses b p xs.
Proof.
  intros SS. unfold party_presses. destruct (ps_modifier p).
  - intros (x & y & E & P & M & P' & D). exists x, y. split; [exact E|]. split; [exact (party_same b b' p x SS P)|]. split; [exact M|].
    split; [exact (party_same b b' p y SS P') | exact (default_same _ _ _ _ _ SS D)].
  - intros (x & E & P & D). exists x. split; [exact E|]. split; [eapply party_same | eapply default_same]; eassumption.
Qed.
Theorem party_all b party b' : foldM add_party_skill party b = Ok b' ->
  exists xss, b_timed b' = (b_timed b ++ List.concat xss)%list /\ b_sequence b' = b_sequence b /\ same_settings b b'
    /\ Forall2 (party_presses b) party xss.
Proof.
  revert b; induction party as [|p party IH]; intros b H; cbn [foldM] in H.
  - injection H as <-. exists []. cbn. rewrite app_nil_r. repeat split. constructor.
  - inv_bind H. rename a into b1, E into E1. apply add_party in E1 as (x & T & S & SS & P).
    apply IH in H as (xs & T' & S' & SS' & F). exists (x :: xs).
    split; [rewrite T', T, <- app_assoc; reflexivity|]. split; [congruence|]. split; [eapply same_settings_trans; eassumption|].
    constructor; [exact P|]. eapply Forall2_impl; [|exact F]. intros; eapply party_presses_same; eassumption.
Qed.
Theorem example_presses b party skills b' : example_rotation b party skills = Ok b' ->
  exists xss ys, b_timed b' = (b_timed b ++ List.concat xss)%list /\ b_sequence b' = (b_sequence b ++ ys)%list /\ same_settings b b'
    /\ Forall2 (party_presses b) party xss /\ Forall2 (seq_for b) skills ys.
Proof.
  unfold example_rotation. intros H. inv_bind H. rename a into b1, E into E1.
  apply party_all in E1 as (xss & T1 & S1 & SS1 & F1).
  assert (X : exists ys, b_timed b' = b_timed b1 /\ b_sequence b' = (b_sequence b1 ++ ys)%list /\ same_settings b1 b' /\ Forall2 (seq_for b1) skills ys).
  { clear - H. revert b1 H; induction skills as [|s skills IH]; intros b1 H; cbn [foldM] in H.
    - injection H as <-. exists []. rewrite app_nil_r. repeat split. constructor.
    - inv_bind H. rename a into b2, E into E2. apply add_next_spec in E2 as (x & S & T & SS & J & G & _ & D & Tg).
      apply IH in H as (ys & T' & S' & SS' & F). exists (x :: ys).
      split; [congruence|]. split; [rewrite S', S; cbn [Z.to_nat Pos.to_nat Pos.iter_op repeat]; rewrite <- app_assoc; reflexivity|].
      split; [eapply same_settings_trans; eassumption|]. constructor.
      + split; [exact J|]. split; [exact G|]. split; [apply D; reflexivity | exact Tg].
      + eapply Forall2_impl; [|exact F]. intros n y (H1 & H2 & H3 & H4). destruct SS as (Q1 & Q2 & Q3 & Q4 & Q5 & Q6 & Q7 & Q8 & Q9).
        unfold seq_for, default_for in *. rewrite Q1, Q2, Q8 in *. auto. }
  destruct X as (ys & T2 & S2 & SS2 & F2). exists xss, ys. split; [congruence|]. split; [congruence|].
  split; [eapply same_settings_trans; eassumption|]. split; [exact F1|].
  eapply Forall2_impl; [|exact F2]. intros n y (H1 & H2 & H3 & H4). destruct SS1 as (Q1 & Q2 & Q3 & Q4 & Q5 & Q6 & Q7 & Q8 & Q9).
  unfold seq_for, default_for in *. rewrite Q1, Q2, Q8 in *. auto.
Qed.

(** ** Analyses *)

Open Scope Q_scope.

Lemma snapshots_gen ts l : forall acc,
  fold_left (fun acc x => if Qle_bool (q (pk_snapshot x)) ts then (acc + pk_expected x)%Q else acc) l acc == acc + dealt_by l ts.
Proof.
  induction l as [|x l IH]; intros acc; cbn [fold_left]; [unfold dealt_by; cbn; lra|].
  rewrite IH. unfold dealt_by. cbn [filter]. change (q (pk_snapshot x)) with (inject_Z (pk_snapshot x)).
  destruct (Qle_bool (inject_Z (pk_snapshot x)) ts); cbn [map qsum fold_right]; [|reflexivity].
  unfold qsum. lra.
Qed.
Theorem snapshots_dealt l t : snapshots_before l t == dealt_by l (fmul 1000 t).
Proof. unfold snapshots_before. rewrite snapshots_gen. change (q 1000) with 1000. lra. Qed.
Lemma dealt_by_mono l a b : (forall x, In x l -> 0 <= pk_expected x) -> a <= b -> dealt_by l a <= dealt_by l b.
Proof.
  intros P L. induction l as [|x l IH]; [apply Qle_refl|].
  assert (P' : forall y, In y l -> 0 <= pk_expected y) by (intros y Hy; apply P; right; exact Hy). specialize (IH P').
  pose proof (P x (or_introl eq_refl)) as Px. unfold dealt_by in *. cbn [filter].
  destruct (Qle_bool (inject_Z (pk_snapshot x)) a) eqn:Ea.
  - apply Qle_bool_iff in Ea. assert (Eb : Qle_bool (inject_Z (pk_snapshot x)) b = true) by (apply Qle_bool_iff; lra).
    rewrite Eb. cbn [map qsum fold_right]. unfold qsum in IH. lra.
  - destruct (Qle_bool (inject_Z (pk_snapshot x)) b); cbn [map qsum fold_right]; unfold qsum in *; lra.
Qed.
Theorem snapshots_mono l s t : (forall x, In x l -> 0 <= pk_expected x) -> s <= t -> snapshots_before l s <= snapshots_before l t.
Proof. intros P L. rewrite !snapshots_dealt. apply dealt_by_mono; [exact P|]. apply fmul_mono_r; [discriminate | exact L]. Qed.
Lemma dealt_by_all l ms : (forall x, In x l -> inject_Z (pk_snapshot x) <= ms) -> dealt_by l ms = dealt l.
Proof.
  intros H. unfold dealt_by, dealt. induction l as [|x l IH]; [reflexivity|]. cbn [filter].
  rewrite (proj2 (Qle_bool_iff _ _) (H x (or_introl eq_refl))). cbn [map qsum fold_right].
  f_equal. apply IH. intros y Hy. apply H. right; exact Hy.
Qed.
Lemma dealt_by_whole l ms n : inject_Z n <= ms -> ms < inject_Z (n + 1) -> dealt_by l ms = dealt_by l (inject_Z n).
Proof.
  intros L U. unfold dealt_by. f_equal. f_equal. apply filter_ext. intros x.
  apply Bool.eq_true_iff_eq. rewrite !Qle_bool_iff. split; intros H; [|lra].
  assert (X : inject_Z (pk_snapshot x) < inject_Z (n + 1)) by lra. apply inject_Z_lt_inv in X. apply inject_Z_le. lia.
Qed.

Close Scope Q_scope.
Lemma max_snapshot_gen l : forall m0, -1 <= m0 ->
  let m := fold_left (fun m x => if m <? pk_snapshot x then pk_snapshot x else m) l m0 in
  m0 <= m /\ (forall x, In x l -> pk_snapshot x <= m) /\ (m = m0 \/ exists x, In x l /\ pk_snapshot x = m).
Proof.
  induction l as [|x l IH]; intros m0 L; cbn [fold_left]; [repeat split; [lia | intros x [] | left; reflexivity]|].
  destruct (m0 <? pk_snapshot x) eqn:E.
  - apply Z.ltb_lt in E. destruct (IH (pk_snapshot x)) as (H1 & H2 & H3); [lia|]. cbn zeta in *. split; [lia|]. split.
    + intros y [<-|Hy]; [exact H1 | apply H2, Hy].
    + right. destruct H3 as [->|(y & Hy & E')]; [exists x; split; [left|]; reflexivity | exists y; split; [right; exact Hy | exact E']].
  - apply Z.ltb_ge in E. destruct (IH m0 L) as (H1 & H2 & H3). cbn zeta in *. split; [exact H1|]. split.
    + intros y [<-|Hy]; [lia | apply H2, Hy].
    + destruct H3 as [H3|(y & Hy & E')]; [left; exact H3 | right; exists y; split; [right; exact Hy | exact E']].
Qed.
Lemma max_snapshot_last l : last_snapshot l (max_snapshot l).
Proof. destruct (max_snapshot_gen l (-1) ltac:(lia)) as (H1 & H2 & H3). cbn zeta in *. split; [exact H2|]. split; [exact H1 | exact H3]. Qed.
Lemma last_snapshot_fun l m m' : last_snapshot l m -> last_snapshot l m' -> m = m'.
Proof.
  intros (A & B & C) (A' & B' & C').
  assert (m <= m') by (destruct C as [->|(x & Hx & <-)]; [exact B' | apply A', Hx]).
  assert (m' <= m) by (destruct C' as [->|(x & Hx & <-)]; [exact B | apply A, Hx]). lia.
Qed.

Theorem intervals_shape l k rs m : 0 < k -> dps_at_intervals l k = Ok rs -> last_snapshot l m ->
  exists steps,
    rs = (map (fun z => (inject_Z z, snapshots_before l (inject_Z z))) steps
          ++ [(fdiv (inject_Z m) 1000, snapshots_before l (fdiv (inject_Z m) 1000))])%list
    /\ StronglySorted Z.lt steps
    /\ forall z, In z steps <-> (exists j, 1 <= j /\ z = k * j) /\ z < Qceiling (fdiv (inject_Z m) 1000).
Proof.
  intros K H L. pose proof (last_snapshot_fun l _ _ L (max_snapshot_last l)) as ->.
  unfold dps_at_intervals, interval_stamps in H. rewrite (proj2 (Z.eqb_neq k 0)), (proj2 (Z.ltb_ge k 0)) in H by lia.
  cbn [bind] in H. injection H as <-. rewrite map_app, map_map. cbn [map].
  eexists. split; [reflexivity|]. split; [apply range_step_sorted, K|].
  intros z. rewrite range_step_in by exact K. split; intros ((j & J1 & J2) & U); (split; [|exact U]).
  - exists (j + 1). split; [lia | nia].
  - exists (j - 1). split; [lia | nia].
Qed.
Theorem intervals_total l k : 0 < k -> exists rs, dps_at_intervals l k = Ok rs.
Proof.
  intros K. unfold dps_at_intervals, interval_stamps. rewrite (proj2 (Z.eqb_neq k 0)), (proj2 (Z.ltb_ge k 0)) by lia. cbn. eauto.
Qed.

Open Scope Q_scope.
(** [1000 * (m / 1000)] is less than 1 away from [m]. *)
Lemma there_and_back m : (0 <= m <= 2 ^ 50)%Z ->
  inject_Z (m - 1) < fmul 1000 (fdiv (inject_Z m) 1000) < inject_Z (m + 1).
Proof.
  intros (L & U). unfold fmul, fdiv.
  set (x := inject_Z m / 1000). set (y := 1000 * fl x).
  assert (X0 : 0 <= inject_Z m) by (change 0 with (inject_Z 0); apply inject_Z_le, L).
  assert (XU : inject_Z m <= inject_Z (2 ^ 50)) by (apply inject_Z_le, U).
  change (inject_Z (2 ^ 50)) with (1125899906842624 # 1) in XU.
  assert (Ex : 1000 * x == inject_Z m) by (unfold x; field).
  assert (x0 : 0 <= x) by lra.
  pose proof (fl_error x) as E1. rewrite (Qabs_pos x x0) in E1. apply Qabs_Qle_condition in E1.
  change (pow2 (-53)) with (1 # 9007199254740992) in E1.
  assert (y0 : 0 <= y) by (unfold y; pose proof (fl_nonneg x x0); lra).
  pose proof (fl_error y) as E2. rewrite (Qabs_pos y y0) in E2. apply Qabs_Qle_condition in E2.
  change (pow2 (-53)) with (1 # 9007199254740992) in E2.
  assert (Y : inject_Z m - inject_Z m * (1 # 9007199254740992) <= y <= inject_Z m + inject_Z m * (1 # 9007199254740992)) by (unfold y; lra).
  replace (m - 1)%Z with (m + -1)%Z by lia. rewrite !inject_Z_plus. change (inject_Z (-1)) with (-1 # 1). change (inject_Z 1) with (1 # 1).
  split; lra.
Qed.
Theorem last_entry l m : last_snapshot l m -> (0 <= m <= 2 ^ 50)%Z ->
  let v := snapshots_before l (fdiv (inject_Z m) 1000) in
  (inject_Z m <= fmul 1000 (fdiv (inject_Z m) 1000) /\ v == dealt l)
  \/ (fmul 1000 (fdiv (inject_Z m) 1000) < inject_Z m /\ v == dealt_by l (inject_Z (m - 1))).
Proof.
  intros (A & B & C) R. cbn zeta. rewrite snapshots_dealt. pose proof (there_and_back m R) as (Lo & Hi).
  destruct (Qlt_le_dec (fmul 1000 (fdiv (inject_Z m) 1000)) (inject_Z m)) as [Q|Q].
  - right. split; [exact Q|]. rewrite (dealt_by_whole l _ (m - 1)); [reflexivity | lra |].
    replace (m - 1 + 1)%Z with m by lia. exact Q.
  - left. split; [exact Q|]. rewrite dealt_by_all; [reflexivity|]. intros x Hx.
    apply Qle_trans with (inject_Z m); [apply inject_Z_le, A, Hx | exact Q].
Qed.
