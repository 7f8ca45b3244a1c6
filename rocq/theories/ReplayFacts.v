(** * Facts about rotations pressed again at reported times (C73) *)

From Coq Require Import ZArith QArith List String Bool Lia Permutation Sorted.
From Verif Require Import Base BaseFacts Heap HeapFacts Float FloatFacts Strings Types Lookup Stats Library Events Rotation Csv Export SpecQueue SpecPlay
  SpecTimeline SpecDots SpecRun SpecCond SpecReplay CondFacts DotFacts PlayFacts LogFacts RunFacts RunProps ApiFacts LaterFacts.
Import ListNotations.
Open Scope string_scope.
Open Scope Z_scope.
Local Opaque fl.

Lemma truncates_unique x a b : truncates x a -> truncates x b -> a = b.
Proof.
  intros (P & N) (P' & N'). destruct (Qlt_le_dec x 0) as [L|L].
  - destruct (N L) as (A1 & A2), (N' L) as (B1 & B2).
    assert (inject_Z (a - 1) < inject_Z b)%Q by (eapply Qlt_le_trans; [exact A1 | exact B2]).
    assert (inject_Z (b - 1) < inject_Z a)%Q by (eapply Qlt_le_trans; [exact B1 | exact A2]).
    rewrite <- Zlt_Qlt in *. lia.
  - destruct (P L) as (A1 & A2), (P' L) as (B1 & B2).
    assert (inject_Z a < inject_Z (b + 1))%Q by (eapply Qle_lt_trans; [exact A1 | exact B2]).
    assert (inject_Z b < inject_Z (a + 1))%Q by (eapply Qle_lt_trans; [exact B1 | exact A2]).
    rewrite <- Zlt_Qlt in *. lia.
Qed.

(** ** Builders that differ in their presses alone *)

Definition twins (b b2 : builder) : Prop :=
  b_stats b2 = b_stats b /\ b_library b2 = b_library b /\ b_snap_dots b2 = b_snap_dots b /\ b_autos b2 = b_autos b
  /\ b_ignore_trailing b2 = b_ignore_trailing b /\ b_fight_start b2 = b_fight_start b /\ b_windows b2 = b_windows b
  /\ b_default_target b2 = b_default_target b /\ b_priority b2 = b_priority b /\ b_dots b2 = b_dots b
  /\ b_stamps b2 = b_stamps b /\ b_targets b2 = b_targets b.
Definition as_timed (t : Z) (x : seq_item) : timed := mkTimed t (sq_skill x) (sq_modifier x) (sq_job x) (sq_targets x).
Definition ms_of (t : Q) : Z := qtrunc (fmul (q 1000) t).

Lemma twin_calls l : forall ts b b2 b', twins b b2 -> List.length ts = List.length l -> one_by_one b l = Ok b' ->
  exists b2' new, at_times b2 (combine l ts) = Ok b2' /\ twins b' b2'
    /\ List.length new = List.length l
    /\ b_sequence b' = (b_sequence b ++ new)%list /\ b_timed b' = b_timed b
    /\ b_timed b2' = (b_timed b2 ++ map (fun x => as_timed (ms_of (fst x)) (snd x)) (combine ts new))%list
    /\ b_sequence b2' = b_sequence b2.
Proof.
  induction l as [|c l IH]; intros ts b b2 b' T L H.
  - cbn in H. injection H as <-. exists b2, []. destruct ts; [|discriminate L]. cbn. rewrite !app_nil_r. auto 10.
  - destruct ts as [|t ts]; [discriminate L|]. injection L as L. unfold one_by_one in H. cbn [foldM] in H. inv_bind H. fold (one_by_one a l) in H.
    unfold add_next in E. destruct (process_targets b (c_targets c)) as [tg all] eqn:Pt. inv_bind E. cbn [Z.to_nat Pos.to_nat Pos.iter_op repeat] in E. 
    change (Z.to_nat 1) with 1%nat in E. cbn [repeat] in E. rename a0 into s. rename E0 into Gs. injection E as <-.
    destruct T as (T1 & T2 & T3 & T4 & T5 & T6 & T7 & T8 & T9 & T10 & T11 & T12).
    assert (A : exists b3, add b2 t (c_name c) (c_modifier c) (c_job c) (c_targets c) = Ok b3
       /\ twins (mkBuilder (b_stats b) (b_library b) (b_snap_dots b) (b_autos b) (b_ignore_trailing b)
        (b_fight_start b) (b_windows b) (b_default_target b) (b_priority b) (b_timed b)
        (b_sequence b ++ [mkSeq s (modifier_or_default b s (c_modifier c) (job_or_default b (c_job c))) (job_or_default b (c_job c)) tg]) (b_dots b) (b_press b) (b_queue b)
        (b_stamps b) all) b3
       /\ b_timed b3 = (b_timed b2 ++ [as_timed (ms_of t) (mkSeq s (modifier_or_default b s (c_modifier c) (job_or_default b (c_job c))) (job_or_default b (c_job c)) tg)])%list
       /\ b_sequence b3 = b_sequence b2).
    { unfold add. assert (Pt2 : process_targets b2 (c_targets c) = (tg, all)) by (unfold process_targets in *; rewrite T8, T12; exact Pt).
      rewrite Pt2. assert (J : job_or_default b2 (c_job c) = job_or_default b (c_job c)) by (unfold job_or_default; rewrite T1; reflexivity).
      rewrite J, T2, Gs. cbn [bind]. eexists. split; [reflexivity|]. cbn. unfold twins. cbn.
      assert (M : modifier_or_default b2 s (c_modifier c) (job_or_default b (c_job c)) = modifier_or_default b s (c_modifier c) (job_or_default b (c_job c))).
      { unfold modifier_or_default, get_default_skill_modifier. rewrite T1. reflexivity. }
      rewrite M. split; [|split; reflexivity]. repeat (split; [first [assumption | reflexivity]|]). first [assumption | reflexivity]. }
    destruct A as (b3 & A1 & A2 & A3 & A4).
    destruct (IH ts _ _ _ A2 L H) as (b2' & new & R1 & R2 & R3 & R4 & R5 & R6 & R7).
    exists b2'. eexists (_ :: new). unfold at_times. cbn [combine foldM fst snd]. rewrite A1. cbn [bind].
    split; [exact R1|]. split; [exact R2|]. split; [cbn; f_equal; exact R3|]. cbn [b_sequence b_timed] in R4, R5.
    rewrite <- app_assoc in R4. split; [exact R4|]. split; [exact R5|]. split; [|rewrite R7; exact A4].
    rewrite R6, A3, <- app_assoc. reflexivity.
Qed.

(** ** The logs *)

Lemma seq_as_timed st tk t g x p tk' t' g' :
  seq_effect st tk t g x = Ok (p, tk', t', g') -> timed_effect st tk (as_timed (pl_time p) x) = Ok (p, tk').
Proof.
  intros H. assert (P : pl_time p = press_time (sk_is_GCD (sq_skill x)) t g).
  { unfold seq_effect in H. inv_bind H. destruct a as [[[tk1 m1] bu] de]. inv_bind H. inv_bind H. inv_bind H. inv_bind H.
    destruct a2 as [p1 tk2]. apply skill_effect_spec in E3 as (_ & _ & E3 & _); [|cbn; destruct (sq_targets x); [discriminate E2 | discriminate]]. cbn [pl_time] in E3.
    inv_bind H. destruct (sk_is_GCD (sq_skill x)); [inv_bind H; inv_bind H|]; injection H as <- _ _ _; exact E3. }
  unfold timed_effect, seq_effect in *. rewrite P. cbn [as_timed tm_time tm_skill tm_modifier tm_job tm_targets].
  destruct (compile_press tk (press_time (sk_is_GCD (sq_skill x)) t g) (sq_skill x) (sq_modifier x)) as [[[[tk1 m1] bu] de]|e]; [|discriminate H].
  cbn [bind] in H |- *. destruct (add_positional (sq_skill x) m1) as [m2|e]; [|discriminate H]. cbn [bind] in H |- *.
  inv_bind H. destruct (of_option IndexError (hd_error (sq_targets x))) as [mn|e]; [|discriminate H]. cbn [bind] in H |- *.
  inv_bind H. destruct a0 as [p1 tk2]. rewrite E0.
  inv_bind H. destruct (sk_is_GCD (sq_skill x)); [inv_bind H; inv_bind H|]; injection H as <- <- _ _; reflexivity.
Qed.
Lemma seq_log_as_timed st l : forall tk t g log r, seq_log st tk t g l = Ok (log, r) ->
  exists tk', timed_log st tk (map (fun x => as_timed (fst x) (snd x)) (combine (map pl_time log) l)) = Ok (log, tk').
Proof.
  induction l as [|x l IH]; intros tk t g log r H.
  - cbn in H. injection H as <- _. exists tk. reflexivity.
  - cbn [seq_log] in H. inv_bind H. destruct a as [[[p tk1] t1] g1]. inv_bind H. destruct a as [lg r1]. injection H as <- _.
    destruct (IH _ _ _ _ _ E0) as (tk' & R). exists tk'. cbn [map combine fst snd timed_log].
    rewrite (seq_as_timed _ _ _ _ _ _ _ _ _ E). cbn [bind]. rewrite R. reflexivity.
Qed.
Lemma seq_log_length st l : forall tk t g log r, seq_log st tk t g l = Ok (log, r) -> List.length log = List.length l.
Proof.
  induction l as [|x l IH]; intros tk t g log r H.
  - cbn in H. injection H as <- _. reflexivity.
  - cbn [seq_log] in H. inv_bind H. destruct a as [[[p tk1] t1] g1]. inv_bind H. destruct a as [lg r1]. injection H as <- _.
    cbn. f_equal. eapply IH, E0.
Qed.

(** ** Sorting presses with distinct times *)

Lemma nth_keys_differ {A} (k : A -> Z) h i j x y :
  NoDup (map k h) -> i <> j -> nth_error h i = Some x -> nth_error h j = Some y -> k x <> k y.
Proof.
  intros N D X Y E. apply D. apply (proj1 (NoDup_nth_error (map k h)) N).
  - rewrite map_length. apply nth_error_Some. congruence.
  - rewrite !nth_error_map, X, Y. cbn. congruence.
Qed.
Section Agree.
  Context {A : Type} (k : A -> Z) (lt lt' : A -> A -> res bool).
  Hypothesis agree : forall a b, k a <> k b -> lt a b = lt' a b.

  Lemma swap_keys h i j x y :
    i <> j -> nth_error h i = Some x -> nth_error h j = Some y -> NoDup (map k h) -> NoDup (map k (upd (upd h i y) j x)).
  Proof. intros D X Y N. eapply Permutation_NoDup; [apply Permutation_map, (swap_perm h i j x y D X Y) | exact N]. Qed.

  Lemma siftdown_agree fuel : forall h pos, NoDup (map k h) -> siftdown lt fuel h pos = siftdown lt' fuel h pos.
  Proof.
    induction fuel as [|fuel IH]; intros h pos N; [reflexivity|]. cbn [siftdown]. destruct pos as [|p]; [reflexivity|].
    destruct (nth_error h (S p)) as [x|] eqn:X; [|reflexivity]. destruct (nth_error h (Nat.div2 p)) as [y|] eqn:Y; [|reflexivity].
    assert (D : S p <> Nat.div2 p) by (pose proof (par_lt (S p) ltac:(lia)) as PL; unfold par in PL; cbn [pred] in PL; lia).
    rewrite (agree x y) by (eapply nth_keys_differ; eassumption). destruct (lt' x y) as [[|]|e]; [|reflexivity..]. cbn [bind].
    apply IH, swap_keys; assumption.
  Qed.
  Lemma siftup_agree fuel : forall h pos, NoDup (map k h) -> siftup_leaf lt fuel h pos = siftup_leaf lt' fuel h pos.
  Proof.
    induction fuel as [|fuel IH]; intros h pos N; [reflexivity|]. cbn [siftup_leaf].
    destruct (nth_error h pos) as [x|] eqn:X; [|reflexivity]. destruct (nth_error h (2 * pos + 1)) as [lx|] eqn:L; [|reflexivity].
    destruct (nth_error h (2 * pos + 2)) as [rx|] eqn:R; [|apply IH, swap_keys; [lia | assumption..]].
    rewrite (agree lx rx) by (eapply nth_keys_differ; [exact N | | exact L | exact R]; lia).
    destruct (lt' lx rx) as [[|]|e]; [| |reflexivity]; cbn [bind]; (apply IH, swap_keys; [lia | assumption..]).
  Qed.
  Lemma heappop_agree h : NoDup (map k h) -> heappop lt h = heappop lt' h.
  Proof.
    intros N. unfold heappop. destruct h as [|top h]; [reflexivity|]. pose proof (removelast_perm top h top) as P.
    destruct (removelast (top :: h)) as [|r rest] eqn:Er; [reflexivity|]. set (z := last (top :: h) top) in *.
    assert (N1 : NoDup (map k (z :: rest))).
    { apply (Permutation_map k) in P. apply (Permutation_NoDup P) in N. cbn in N |- *. inversion N as [|? ? M1 M2]; subst. inversion M2; subst.
      constructor; [|assumption]. intros I. apply M1. right. exact I. }
    rewrite (siftup_agree _ _ _ N1). destruct (siftup_leaf lt' _ (z :: rest) 0) as [[h2 pos]|e] eqn:E; [|reflexivity]. cbn [bind].
    rewrite siftdown_agree; [reflexivity|]. apply siftup_leaf_perm in E. eapply Permutation_NoDup; [apply Permutation_map, E | exact N1].
  Qed.
End Agree.

Definition time_lt (a b : timed) : res bool := Ok (tm_time a <? tm_time b).
Lemma timed_lt_apart a b : tm_time a <> tm_time b -> timed_lt a b = time_lt a b.
Proof. intros D. unfold timed_lt, time_lt. destruct (Z.eqb_spec (tm_time a) (tm_time b)); [contradiction | reflexivity]. Qed.
Lemma drain_agree fuel : forall h, is_heap timed_le h -> NoDup (map tm_time h) -> drain timed_lt fuel h = drain time_lt fuel h.
Proof.
  induction fuel as [|fuel IH]; intros h I N; destruct h as [|x h]; try reflexivity. cbn [drain].
  rewrite (heappop_agree tm_time timed_lt time_lt timed_lt_apart (x :: h) N).
  destruct (heappop time_lt (x :: h)) as [[y h']|e] eqn:E; [|reflexivity]. cbn [bind].
  eapply (heappop_spec time_lt timed_le) in E as (P & I' & _).
  - rewrite IH; [reflexivity | exact I'|]. apply (Permutation_map tm_time) in P. apply (Permutation_NoDup P) in N. cbn in N. inversion N; assumption.
  - intros a; unfold timed_le; lia.
  - intros a b c; unfold timed_le; lia.
  - intros a b H. injection H as H. unfold timed_le. lia.
  - intros a b H. injection H as H. unfold timed_le. lia.
  - exact I.
Qed.
Lemma order_total l : NoDup (map tm_time l) -> exists o, timed_order l = Ok o.
Proof.
  intros N. unfold timed_order. rewrite drain_agree.
  - apply (drain_total time_lt timed_le).
    + intros a; unfold timed_le; lia.
    + intros a b c; unfold timed_le; lia.
    + intros a b H. injection H as H. unfold timed_le. lia.
    + intros a b H. injection H as H. unfold timed_le. lia.
    + apply sorted_is_heap. exact (sort_by_sorted tm_time l).
    + intros a b _ _. unfold time_lt. eauto.
    + rewrite (Permutation_length (sort_by_perm tm_time l)). lia.
  - apply sorted_is_heap. exact (sort_by_sorted tm_time l).
  - eapply Permutation_NoDup; [|exact N]. apply Permutation_map. symmetry. apply sort_by_perm.
Qed.
Lemma order_of_sorted l : StronglySorted (fun x y => tm_time x < tm_time y) l -> timed_order l = Ok l.
Proof.
  intros S. pose proof (lt_nodup tm_time l S) as N. destruct (order_total l N) as (o & O). rewrite O. f_equal. apply timed_order_spec in O as (P & So). apply (sorted_unique tm_time).
  - apply sorted_le_lt; [|exact So]. eapply Permutation_NoDup; [apply Permutation_map, P | exact N].
  - exact S.
  - intros x. split; apply Permutation_in; [symmetry|]; exact P.
Qed.

(** ** The runs *)

Lemma run_of_logs b b2 slog tlog slog2 tlog2 r :
  twins b b2 -> b_autos b = false -> sequence_log b = Ok slog -> timeds_log b = Ok tlog -> sequence_log b2 = Ok slog2 -> timeds_log b2 = Ok tlog2 ->
  (slog ++ tlog = slog2 ++ tlog2)%list -> get_skill_timing b = Ok r ->
  exists r2, get_skill_timing b2 = Ok r2 /\ same_run r r2.
Proof.
  intros T Na S1 T1 S2 T2 E H. rewrite get_skill_timing_eq in *. cbv zeta in *.
  destruct T as (E1 & E2 & E3 & E4 & E5 & E6 & E7 & E8 & E9 & E10 & E11 & E12).
  assert (W : process_downtime_windows b2 = process_downtime_windows b) by (unfold process_downtime_windows; rewrite E7, E12; reflexivity).
  rewrite W. set (w := process_downtime_windows b) in *.
  unfold presses_pass in *. change (sequence_log (with_windows b w)) with (sequence_log b) in H. change (timeds_log (with_windows b w)) with (timeds_log b) in H.
  change (sequence_log (with_windows b2 w)) with (sequence_log b2). change (timeds_log (with_windows b2 w)) with (timeds_log b2).
  rewrite S1, T1 in H. rewrite S2, T2. cbn [bind] in *. rewrite <- E.
  cbn [b_stats b_dots b_stamps with_windows] in *. rewrite E1, E10, E11.
  destruct (log_pass (b_stats b) (slog ++ tlog) q_init (b_dots b) [] (b_stamps b)) as [[[[q2 d2] p2] s2]|e]; [|discriminate H]. cbn [bind] in *.
  unfold timing_tail in *. cbn [b_ignore_trailing b_snap_dots b_autos b_fight_start b_windows with_windows] in *. rewrite E3, E4, E5, E6.
  destruct (process_all_dots (b_snap_dots b) d2 (if b_ignore_trailing b then get_last_event_time q2 else None) q2) as [q3|e]; [|discriminate H]. cbn [bind] in *.
  rewrite Na in *. cbv iota in *. cbn [bind] in *.
  destruct (match b_fight_start b with Some _ => Ok (q3, p2) | None => shift_timelines q3 p2 end) as [[q5 pr]|e]; [|discriminate H]. cbn [bind] in *.
  destruct (remove_damage_during_downtime w q5) as [q6|e]; [|discriminate H]. cbn [bind] in *. injection H as <-.
  eexists. split; [reflexivity|]. split; [reflexivity|]. split; reflexivity.
Qed.

Lemma twin_settings l b b' : one_by_one b l = Ok b' -> b_fight_start b' = b_fight_start b /\ b_autos b' = b_autos b.
Proof.
  apply (foldM_inv _ (fun x => b_fight_start x = b_fight_start b /\ b_autos x = b_autos b)); [auto|]. intros s c s' _ I H. unfold add_next in H. destruct (process_targets s (c_targets c)). inv_bind H.
  injection H as <-. exact I.
Qed.
Lemma one_by_one_reachable l : forall b b', reachable b -> one_by_one b l = Ok b' -> reachable b'.
Proof.
  intros b b' R. apply (foldM_inv _ reachable); [exact R|]. intros s c s' _ Rs H. eapply reach_add_next; eassumption.
Qed.
Lemma strict_times l : StronglySorted (fun p q => pl_time p <= pl_time q) l -> NoDup (map pl_time l) ->
  StronglySorted (fun p q => pl_time p < pl_time q) l.
Proof.
  intros S N. induction S as [|p l S IH F]; [constructor|]. cbn in N. inversion N as [|? ? N1 N2]; subst. constructor; [auto|].
  rewrite Forall_forall in *. intros q Hq. specialize (F q Hq). assert (pl_time p <> pl_time q); [|lia].
  intros E. apply N1. rewrite E. apply in_map, Hq.
Qed.
Lemma timed_sorted log : StronglySorted (fun p q => pl_time p < pl_time q) log -> forall new, List.length new = List.length log ->
  StronglySorted (fun x y => tm_time x < tm_time y) (map (fun x => as_timed (fst x) (snd x)) (combine (map pl_time log) new)).
Proof.
  induction 1 as [|p log S IH F]; intros new L; [constructor|]. destruct new as [|n new]; [discriminate L|]. injection L as L.
  cbn [map combine]. constructor; [apply IH, L|]. apply Forall_forall. intros x Hx. apply in_map_iff in Hx as ([t s] & <- & Hx).
  apply in_combine_l in Hx. apply in_map_iff in Hx as (p' & <- & Hp). rewrite Forall_forall in F. exact (F p' Hp).
Qed.

Lemma replay b0 l b r :
  reachable b0 -> no_calls b0 -> b_autos b0 = false -> one_by_one b0 l = Ok b -> nonneg_locks b ->
  get_skill_timing b = Ok r -> apart_presses r ->
  exists d, (b_fight_start b0 <> None -> d = 0)
    /\ forall ts, reported_at d r ts ->
       exists b2 r2, at_times b0 (combine l ts) = Ok b2 /\ get_skill_timing b2 = Ok r2 /\ same_run r r2.
Proof.
  intros Re (N1 & N2) Na O L H Ap. pose proof (one_by_one_reachable l _ _ Re O) as Rb.
  pose proof (run_logs b r H (reachable_dots _ Rb)) as (slog & tlog & q2 & autos & d & Rn). cbv zeta in Rn.
  destruct Rn as ((Ls & Lt) & Pl & _ & _ & _ & Mv & _ & _ & Sh & _).
  assert (Tw0 : twins b0 b0) by (unfold twins; auto 20).
  assert (Tr : exists tk rr, new_trackers (b_library b) (st_job (b_stats b)) (b_priority b) = Ok tk
     /\ seq_log (b_stats b) tk (match b_fight_start b with Some t => t | None => 0 end) None (b_sequence b) = Ok (slog, rr)).
  { unfold sequence_log in Ls. inv_bind Ls. inv_bind Ls. destruct a0 as [lg rr]. injection Ls as ->. eauto. }
  destruct Tr as (tk & rr & Tk & Sl).
  assert (Sset : forall ts, List.length ts = List.length l ->
     exists b2 , at_times b0 (combine l ts) = Ok b2 /\ twins b b2 /\ b_timed b = [] /\ b_sequence b2 = [] /\ List.length (b_sequence b) = List.length l
       /\ b_timed b2 = map (fun x => as_timed (ms_of (fst x)) (snd x)) (combine ts (b_sequence b))).
  { intros ts Lts. destruct (twin_calls l ts b0 b0 b Tw0 Lts O) as (b2 & new & A1 & A2 & A3 & A4 & A5 & A6 & A7).
    rewrite N1 in A5, A6. rewrite N2 in A4, A7. cbn in A4, A6. subst new. exists b2. auto 10. }
  assert (Sb : b_fight_start b = b_fight_start b0 /\ b_timed b = [] /\ List.length (b_sequence b) = List.length l /\ b_autos b = false).
  { destruct (twin_calls l (map (fun _ => 0%Q) l) b0 b0 b Tw0 (map_length _ _) O) as (b2 & new & A1 & A2 & A3 & A4 & A5 & A6 & A7).
    destruct (twin_settings _ _ _ O) as (F1 & F2). rewrite N1 in A5. rewrite N2 in A4. cbn in A4. subst new. repeat split; congruence. }
  destruct Sb as (Fs & Bt & Ln & Nb).
  assert (tlog = []).
  { unfold timeds_log in Lt. rewrite Bt, Tk in Lt. cbn in Lt. congruence. }
  subst tlog. rewrite app_nil_r in *. exists d. split.
  { intros Nf. unfold moves in Mv. rewrite Fs in Mv. destruct (b_fight_start b0); [exact Mv | congruence]. }
  pose proof Pl as (P1 & P2 & _ & _ & P5 & _).
  assert (So : StronglySorted (fun p q => pl_time p <= pl_time q) slog).
  { eapply scheduled_ready; [exact P2 | rewrite ?app_nil_r in P5; exact P5|]. eapply played_locks; [exact Pl | exact L]. }
  apply in_time_order_sorted in Sh.
  2:{ apply StronglySorted_map. cbn. apply StronglySorted_map. cbn.
      clear - So. induction So as [|p l S IH F]; constructor; [exact IH|]. eapply Forall_impl; [|exact F]. cbn. intros; lia. }
  unfold apart_presses, reported_at. rewrite Sh. intros ts Rt.
  unfold apart_presses in Ap. rewrite Sh in Ap.
  assert (Lg : List.length slog = List.length (b_sequence b)) by (eapply seq_log_length, Sl).
  assert (Lts : List.length ts = List.length l).
  { apply forall2_length in Rt. rewrite !map_length in Rt. congruence. }
  destruct (Sset ts Lts) as (b2 & A1 & A2 & _ & A4 & A5 & A6).
  assert (Tm : map ms_of ts = map pl_time slog).
  { clear - Rt. revert ts Rt. induction slog as [|p slog IH]; intros ts Rt; inversion Rt as [|t ? ts' ? R1 R2]; subst; [reflexivity|].
    cbn [map]. f_equal; [|apply IH, R2]. cbn [pr_time press_earlier press_record] in R1. unfold ms_of. rewrite Z.sub_add in R1.
    apply (truncates_unique (fmul 1000 t)); [apply (qtrunc_truncates (fmul 1000 t)) | exact R1]. }
  assert (Bt2 : b_timed b2 = map (fun x => as_timed (fst x) (snd x)) (combine (map pl_time slog) (b_sequence b))).
  { rewrite A6, <- Tm. clear. generalize (b_sequence b) as n. induction ts as [|t ts IH]; intros n; [reflexivity|]. destruct n; [reflexivity|]. cbn. rewrite IH. reflexivity. }
  assert (Ss : StronglySorted (fun p q => pl_time p < pl_time q) slog).
  { apply strict_times; [exact So|]. rewrite !map_map in Ap. cbn in Ap.
    apply (NoDup_map_inv (fun t => t - d)). rewrite map_map. exact Ap. }
  destruct (seq_log_as_timed _ _ _ _ _ _ _ Sl) as (tk' & Tl).
  destruct (run_of_logs b b2 slog [] [] slog r A2 Nb Ls Lt) as (r2 & R2 & R3).
  - unfold sequence_log. rewrite A4. destruct A2 as (T1 & T2 & _ & _ & _ & _ & _ & _ & T9 & _). rewrite T1, T2, T9, Tk. reflexivity.
  - unfold timeds_log. destruct A2 as (T1 & T2 & _ & _ & _ & _ & _ & _ & T9 & _). rewrite T1, T2, T9, Tk. cbn [bind]. rewrite Bt2.
    rewrite order_of_sorted by (apply timed_sorted; [exact Ss | congruence]). cbn [bind]. rewrite Tl. reflexivity.
  - rewrite app_nil_r. reflexivity.
  - exact H.
  - exists b2, r2. auto.
Qed.

(** ** Printed presses *)

Lemma join_concat l : join "," l = String.concat "," l.
Proof. induction l as [|x l IH]; [reflexivity|]. destruct l as [|y l]; [reflexivity|]. cbn [join String.concat]. cbn [join String.concat] in IH. rewrite IH. reflexivity. Qed.
Lemma set_of_same l : forall acc, NoDup (acc ++ l) -> fold_left (fun acc x => sadd x acc) l acc = (acc ++ l)%list.
Proof.
  induction l as [|x l IH]; intros acc N; [rewrite app_nil_r; reflexivity|]. cbn [fold_left].
  assert (sadd x acc = (acc ++ [x])%list) as ->.
  { unfold sadd. destruct (smem x acc) eqn:E; [|reflexivity]. exfalso. apply smem_spec in E. apply NoDup_remove_2 in N. apply N, in_or_app. left. exact E. }
  rewrite IH; rewrite <- app_assoc; [reflexivity | exact N].
Qed.
Lemma canonicalize_again w : join "," (canonicalize w) <> "" -> canonicalize (join "," (canonicalize w)) = canonicalize w.
Proof.
  intros Ne. set (l := canonicalize w) in *. assert (N : NoDup l) by apply canonicalize_nodup.
  assert (C : forall x, In x l -> comma_free x /\ strip x = x).
  { intros x Hx. apply canonicalize_in in Hx as (_ & p & Hp & <-). pose proof (strip_spec p) as (a & e & Ep & _ & _ & T).
    split; [|apply strip_id, T]. intros F. apply (proj2 (split_spec w) p Hp). rewrite Ep, !chars_app. apply in_or_app. right. apply in_or_app. left. exact F. }
  clearbody l. unfold canonicalize at 1. destruct (join "," l) as [|a s] eqn:J; [congruence|]. rewrite <- J.
  rewrite join_concat, split_concat; [|intros ->; discriminate J | intros p Hp; apply C, Hp].
  assert (map strip l = l) as -> by (clear - C; induction l as [|x l IH]; [reflexivity|]; cbn; f_equal; [apply C; left; reflexivity | apply IH; intros y Hy; apply C; right; exact Hy]).
  unfold set_of. rewrite set_of_same; [reflexivity | exact N].
Qed.

(** What a call asks of a builder, and how its press is reported. *)
Definition asks (b : builder) (c : call) (x : seq_item) : Prop :=
  sq_job x = job_or_default b (c_job c)
  /\ get_skill (b_library b) (c_name c) (sq_job x) = Ok (sq_skill x)
  /\ sq_modifier x = modifier_or_default b (sq_skill x) (c_modifier c) (sq_job x).
Definition reports (b : builder) (c : call) (p : press) : Prop :=
  exists x, asks b c x /\ pr_name p = sk_name (sq_skill x)
    /\ pr_job p = (if String.eqb (sq_job x) (st_job (b_stats b)) then "" else sq_job x)
    /\ pr_cond p = join "," (sm_cond (sq_modifier x)).

Lemma calls_ask l : forall b b', one_by_one b l = Ok b' ->
  b_stats b' = b_stats b /\ exists new, b_sequence b' = (b_sequence b ++ new)%list /\ Forall2 (asks b) l new.
Proof.
  induction l as [|c l IH]; intros b b' H.
  - cbn in H. injection H as <-. split; [reflexivity|]. exists []. rewrite app_nil_r. split; constructor.
  - unfold one_by_one in H. cbn [foldM] in H. inv_bind H. fold (one_by_one a l) in H.
    unfold add_next in E. destruct (process_targets b (c_targets c)) as [tg all]. inv_bind E. change (Z.to_nat 1) with 1%nat in E. cbn [repeat] in E.
    injection E as <-. destruct (IH _ _ H) as (S & new & Q & F). split; [exact S|]. cbn [b_sequence] in Q.
    eexists (_ :: new). split; [rewrite Q, <- app_assoc; reflexivity|]. constructor; [|exact F].
    split; [reflexivity|]. split; [exact E0 | reflexivity].
Qed.
Lemma presses_report l b0 b r : reachable b0 -> no_calls b0 -> one_by_one b0 l = Ok b -> nonneg_locks b -> get_skill_timing b = Ok r ->
  Forall2 (reports b0) l (get_button_press_timing r).
Proof.
  intros Re (N1 & N2) O L H. pose proof (one_by_one_reachable l _ _ Re O) as Rb.
  destruct (calls_ask l b0 b O) as (S & new & Q & F). rewrite N2 in Q. cbn in Q.
  assert (Bt : b_timed b = []).
  { rewrite <- N1. revert O. apply (foldM_inv _ (fun x => b_timed x = b_timed b0)); [reflexivity|]. intros s c s' _ I A. unfold add_next in A.
    destruct (process_targets s (c_targets c)). inv_bind A. injection A as <-. exact I. }
  destruct (sequence_only b r Rb H Bt L) as (slog & d & C & _ & -> & _). rewrite Q, S in *. clear - F C. revert slog C.
  induction F as [|c x l new A F IH]; intros slog C; inversion C as [|? p ? lg C1 C2]; subst; [constructor|]. cbn [map]. constructor; [|apply IH, C2].
  destruct C1 as (E1 & E2 & E3 & E4). exists x. split; [exact A|]. cbn. rewrite E1, E2, E3. auto.
Qed.

Lemma same_add b t name m m' job job' tg :
  job_or_default b job = job_or_default b job' ->
  (forall s, get_skill (b_library b) name (job_or_default b job) = Ok s -> modifier_or_default b s m (job_or_default b job) = modifier_or_default b s m' (job_or_default b job)) ->
  add b t name m job tg = add b t name m' job' tg.
Proof.
  intros J M. unfold add. rewrite <- J. destruct (process_targets b tg). destruct (get_skill (b_library b) name (job_or_default b job)) as [s|e] eqn:G; [|reflexivity].
  cbn [bind]. rewrite (M s eq_refl). reflexivity.
Qed.
Lemma empty_default w : join "," (canonicalize w) <> "" -> canonicalize w <> [].
Proof. intros H E. apply H. rewrite E. reflexivity. Qed.

Lemma row_adds b0 b c p : named_lookup (b_library b0) -> reportable c -> reports b0 c p ->
  b_stats b = b_stats b0 -> b_library b = b_library b0 ->
  add b (fl (inject_Z (pr_time p) / 1000)) (c_name c) (c_modifier c) (c_job c) (c_targets c)
  = add_csv_row b (mkRotCsv (cr_time (printed_row p)) (cr_skill (printed_row p)) (none_if_empty (cr_job (printed_row p))) (cr_cond (printed_row p)) None).
Proof.
  intros Nl (T & J & M) (x & (A1 & A2 & A3) & R1 & R2 & R3) Es El. unfold add_csv_row. cbn [rc_time rc_skill rc_job rc_cond rc_targets printed_row cr_time cr_skill cr_job cr_cond].
  rewrite T. rewrite R1, (Nl _ _ _ A2). assert (Jd : job_or_default b (c_job c) = sq_job x) by (rewrite A1; unfold job_or_default; rewrite Es; reflexivity).
  change (fdiv (q (pr_time p)) (q 1000)) with (fl (inject_Z (pr_time p) / 1000)). apply same_add; rewrite Jd.
  - rewrite R2. destruct (String.eqb_spec (sq_job x) (st_job (b_stats b0))) as [E|E].
    + cbn. rewrite Es. exact E.
    + destruct (sq_job x) as [|a s] eqn:Sj; [|reflexivity]. exfalso. unfold job_or_default in A1. destruct (c_job c) as [j|].
      * apply J. congruence.
      * congruence.
  - intros s G. rewrite El in G. rewrite A2 in G. injection G as <-.
    assert (Ms : forall m, modifier_or_default b (sq_skill x) m (sq_job x) = modifier_or_default b0 (sq_skill x) m (sq_job x)).
    { intros m. unfold modifier_or_default, get_default_skill_modifier. rewrite Es. reflexivity. }
    rewrite !Ms, <- A3, R3. destruct M as [M|(w & M & Nw)].
    + rewrite M in A3. unfold modifier_or_default, get_default_skill_modifier in A3 |- *. destruct (String.eqb (sq_job x) (st_job (b_stats b0))) eqn:Eo.
      * rewrite A3. reflexivity.
      * rewrite A3. cbn [sm_cond modifier_with]. destruct (join "," (canonicalize (sk_off_class_default (sq_skill x)))) as [|a s] eqn:Jn; [reflexivity|].
        cbn [csv_modifier]. rewrite <- Jn. unfold modifier_with. rewrite canonicalize_again by congruence. reflexivity.
    + rewrite M in A3. cbn [modifier_or_default] in A3. rewrite A3. cbn [sm_cond modifier_with].
      destruct (join "," (canonicalize w)) as [|a s] eqn:Jn; [congruence|]. cbn [csv_modifier modifier_or_default]. rewrite <- Jn.
      unfold modifier_with. rewrite canonicalize_again by congruence. reflexivity.
Qed.

Lemma rows_add b0 l ps : named_lookup (b_library b0) -> Forall reportable l -> Forall2 (reports b0) l ps ->
  forall b, b_stats b = b_stats b0 -> b_library b = b_library b0 ->
  at_times b (combine l (map (fun p => fl (inject_Z (pr_time p) / 1000)) ps)) = populate_rotation b (Some (map printed_row ps)).
Proof.
  intros Nl Rp F. induction F as [|c p l ps R F IH]; intros b Es El; [reflexivity|]. inversion Rp as [|? ? Rc Rl]; subst.
  unfold at_times, populate_rotation, read_rotation. cbn [map combine foldM fst snd]. cbn [cr_targets printed_row].
  rewrite (row_adds b0 b c p Nl Rc R Es El). destruct (add_csv_row b _) as [b1|e] eqn:A; [|reflexivity]. cbn [bind].
  assert (S : b_stats b1 = b_stats b0 /\ b_library b1 = b_library b0).
  { unfold add_csv_row, add in A. destruct (process_targets b (rc_targets _)). inv_bind A. injection A as <-. split; assumption. }
  exact (IH Rl b1 (proj1 S) (proj2 S)).
Qed.

Lemma reread b0 l b r :
  reachable b0 -> no_calls b0 -> b_autos b0 = false -> b_fight_start b0 <> None -> named_lookup (b_library b0) ->
  Forall reportable l -> one_by_one b0 l = Ok b -> nonneg_locks b -> get_skill_timing b = Ok r -> apart_presses r ->
  (forall p, In p (get_button_press_timing r) -> survives (pr_time p)) ->
  exists b2 r2, populate_rotation b0 (Some (printed_rows r)) = Ok b2 /\ get_skill_timing b2 = Ok r2 /\ same_run r r2.
Proof.
  intros Re Nc Na Nf Nl Rp O L H Ap Sv. destruct (replay b0 l b r Re Nc Na O L H Ap) as (d & D & K). rewrite (D Nf) in K.
  destruct (K (map (fun p => fl (inject_Z (pr_time p) / 1000)) (get_button_press_timing r))) as (b2 & r2 & A & G & S).
  - unfold reported_at. clear - Sv. induction (get_button_press_timing r) as [|p ps IH]; cbn [map]; constructor.
    + rewrite Z.add_0_r. apply Sv. left. reflexivity.
    + apply IH. intros x Hx. apply Sv. right. exact Hx.
  - exists b2, r2. split; [|split; [exact G | exact S]]. rewrite <- A. symmetry.
    assert (P : b_press r = get_button_press_timing r).
    { unfold get_button_press_timing. rewrite get_skill_timing_eq in H. cbv zeta in H. inv_bind H. destruct a as [[[q2 d2] pr2] sp2]. unfold timing_tail in H.
      inv_bind H. inv_bind H. inv_bind H. destruct a1 as [q5 pr]. inv_bind H. injection H as <-. cbn. symmetry. apply sort_by_idem. }
    unfold printed_rows. rewrite P. apply rows_add with b0; auto. apply (presses_report l b0 b r); auto.
Qed.
