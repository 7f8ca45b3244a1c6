(** * Facts about the order of calls (C74) *)

From Coq Require Import ZArith QArith List String Bool Lia Permutation Sorted.
From Verif Require Import Base BaseFacts Heap HeapFacts Float Strings Types Lookup Stats Library Events Rotation SpecQueue SpecPlay
  SpecTimeline SpecDots SpecRun SpecLater SpecReplay SpecShuffle CondFacts PlayFacts LogFacts RunFacts LaterFacts ReplayFacts.
Import ListNotations.
Open Scope Z_scope.

(** ** Downtime depends on the windows of each target alone *)

Lemma filterM_ext {A} (f g : A -> res bool) l : (forall x, f x = g x) -> filterM f l = filterM g l.
Proof. intros E. induction l as [|x l IH]; [reflexivity|]. cbn. rewrite E, IH. reflexivity. Qed.
Lemma downtime_ext w w' qu : (forall t, windows_for w t = windows_for w' t) -> remove_damage_during_downtime w qu = remove_damage_during_downtime w' qu.
Proof.
  intros E. unfold remove_damage_during_downtime. destruct (q_drain qu) as [evs|e]; [|reflexivity]. cbn [bind]. apply foldM_ext.
  intros s e _. unfold downtime_event. rewrite (filterM_ext (keep_target w e) (keep_target w' e)); [reflexivity|].
  intros x. unfold keep_target, filtered. rewrite E. reflexivity.
Qed.
Lemma dget_const {V} (v : V) l k : dget k (map (fun k => (k, v)) l) = if smem k l then Some v else None.
Proof.
  induction l as [|x l IH]; [reflexivity|]. cbn [map dget smem existsb fst snd]. destruct (String.eqb k x); [reflexivity|]. exact IH.
Qed.
Lemma windows_of_targets b b' t :
  b_windows b' = b_windows b -> (forall x, In x (b_targets b') <-> In x (b_targets b)) ->
  windows_for (process_downtime_windows b') t = windows_for (process_downtime_windows b) t.
Proof.
  intros W T. unfold process_downtime_windows. rewrite W. destruct (b_windows b) as [l|d]; [|reflexivity]. cbn [windows_for]. rewrite !dget_const.
  assert (smem t (b_targets b') = smem t (b_targets b)) as ->; [|reflexivity].
  apply eq_true_iff_eq. rewrite !smem_spec. apply T.
Qed.

(** ** What calls leave behind *)

Definition skill_for (b : builder) (c : call) : res skill := get_skill (b_library b) (c_name c) (job_or_default b (c_job c)).
Definition tags (b : builder) (c : call) : list string := split_targets (match c_targets c with Some s => s | None => b_default_target b end).
Definition instr_call (i : instr) : call := match i with NextPress c _ => c | PressAt _ c => c end.
Definition timeds_of (b : builder) (i : instr) : list timed :=
  match i, skill_for b (instr_call i) with
  | PressAt t c, Ok s => [mkTimed (qtrunc (fmul (q 1000) t)) s (modifier_or_default b s (c_modifier c) (job_or_default b (c_job c))) (job_or_default b (c_job c)) (tags b c)]
  | _, _ => []
  end.
Definition seqs_of (b : builder) (i : instr) : list seq_item :=
  match i, skill_for b (instr_call i) with
  | NextPress c n, Ok s => repeat (mkSeq s (modifier_or_default b s (c_modifier c) (job_or_default b (c_job c))) (job_or_default b (c_job c)) (tags b c)) (Z.to_nat n)
  | _, _ => []
  end.
Definition left_by (b : builder) (l : list instr) : builder :=
  mkBuilder (b_stats b) (b_library b) (b_snap_dots b) (b_autos b) (b_ignore_trailing b)
        (b_fight_start b) (b_windows b) (b_default_target b) (b_priority b) (b_timed b ++ flat_map (timeds_of b) l)
        (b_sequence b ++ flat_map (seqs_of b) l) (b_dots b) (b_press b) (b_queue b)
        (b_stamps b) (fold_left (fun acc x => sadd x acc) (flat_map (fun i => tags b (instr_call i)) l) (b_targets b)).
Definition can_press (b : builder) (i : instr) : Prop := exists s, skill_for b (instr_call i) = Ok s.

Lemma carry_one b i : can_press b i -> carry_out b i = Ok (left_by b [i]).
Proof.
  intros (s & S). unfold left_by. cbn [flat_map]. rewrite !app_nil_r. unfold timeds_of, seqs_of.
  destruct i as [c n|t c]; cbn [carry_out instr_call] in *; rewrite S; unfold skill_for in S; unfold add_next, add, process_targets; rewrite S; cbn [bind]; rewrite app_nil_r; reflexivity.
Qed.
Lemma carry_needs b i b' : carry_out b i = Ok b' -> can_press b i.
Proof.
  intros H. destruct i as [c n|t c]; cbn [carry_out] in H; unfold add_next, add in H; destruct (process_targets b (c_targets c)); inv_bind H; eexists; exact E.
Qed.
Lemma left_by_app b i l : left_by (left_by b [i]) l = left_by b (i :: l).
Proof.
  unfold left_by at 1 3. cbn [b_stats b_library b_snap_dots b_autos b_ignore_trailing b_fight_start b_windows b_default_target b_priority b_timed b_sequence b_dots b_press b_queue b_stamps b_targets left_by].
  cbn [flat_map]. rewrite !app_nil_r, <- !app_assoc, fold_left_app. reflexivity.
Qed.
Lemma follow_spec l : forall b b', follow b l = Ok b' <-> Forall (can_press b) l /\ b' = left_by b l.
Proof.
  induction l as [|i l IH]; intros b b'.
  - unfold follow. cbn. unfold left_by. cbn [flat_map fold_left]. rewrite !app_nil_r. destruct b. cbn. split; [intros H; injection H as <-; auto | intros (_ & ->); reflexivity].
  - unfold follow. cbn [foldM]. split.
    + intros H. inv_bind H. pose proof (carry_needs _ _ _ E) as C. rewrite (carry_one _ _ C) in E. injection E as <-. apply IH in H as (F & ->).
      rewrite left_by_app. split; [|reflexivity]. constructor; [exact C | exact F].
    + intros (F & ->). inversion F as [|? ? C F']; subst. rewrite (carry_one _ _ C). cbn [bind]. apply IH. rewrite left_by_app. auto.
Qed.

Lemma flat_map_filter {A B} (f : A -> list B) p l : (forall x, p x = false -> f x = []) -> flat_map f l = flat_map f (filter p l).
Proof.
  intros E. induction l as [|x l IH]; [reflexivity|]. cbn. destruct (p x) eqn:P; cbn; rewrite IH; [reflexivity|]. rewrite (E x P). reflexivity.
Qed.
Lemma flat_map_perm {A B} (f : A -> list B) l l' : Permutation l l' -> Permutation (flat_map f l) (flat_map f l').
Proof.
  induction 1 as [|x l l' P IH|x y l|l1 l2 l3 P1 IH1 P2 IH2]; cbn; [constructor | apply Permutation_app_head, IH | | eapply Permutation_trans; eassumption].
  rewrite !app_assoc. apply Permutation_app_tail, Permutation_app_comm.
Qed.

(** ** The runs *)

Lemma same_order_of l l' : Permutation l l' -> NoDup (map tm_time l) -> timed_order l = timed_order l'.
Proof.
  intros P N. assert (N' : NoDup (map tm_time l')) by (eapply Permutation_NoDup; [apply Permutation_map, P | exact N]).
  destruct (order_total l N) as (o & O), (order_total l' N') as (o' & O'). rewrite O, O'. f_equal.
  apply timed_order_spec in O as (P1 & S1). apply timed_order_spec in O' as (P2 & S2).
  assert (Po : Permutation o o') by (rewrite <- P1, <- P2; exact P).
  apply (sorted_unique tm_time).
  - apply sorted_le_lt; [|exact S1]. eapply Permutation_NoDup; [apply Permutation_map, P1 | exact N].
  - apply sorted_le_lt; [|exact S2]. eapply Permutation_NoDup; [apply Permutation_map, P2 | exact N'].
  - intros x. split; apply Permutation_in; [|symmetry]; exact Po.
Qed.

Lemma shuffled b0 l l' b r :
  b_autos b0 = false -> reordered l l' -> follow b0 l = Ok b -> distinct_times b -> get_skill_timing b = Ok r ->
  exists b' r', follow b0 l' = Ok b' /\ get_skill_timing b' = Ok r' /\ same_run r r'.
Proof.
  intros Na (P & F) H D G. apply follow_spec in H as (K & ->).
  exists (left_by b0 l'). assert (H' : follow b0 l' = Ok (left_by b0 l')).
  { apply follow_spec. split; [|reflexivity]. rewrite Forall_forall in *. intros x Hx. apply K. eapply Permutation_in; [symmetry; exact P | exact Hx]. }
  set (b := left_by b0 l) in *. set (b' := left_by b0 l') in *.
  assert (Sq : b_sequence b' = b_sequence b).
  { cbn. f_equal. rewrite (flat_map_filter (seqs_of b0) (fun i => negb (is_at i)) l), (flat_map_filter (seqs_of b0) (fun i => negb (is_at i)) l'), F; [reflexivity| |];
      intros [c n|t c]; cbn; try discriminate; reflexivity. }
  assert (Tm : timed_order (b_timed b') = timed_order (b_timed b)).
  { symmetry. apply same_order_of; [|exact D]. cbn. apply Permutation_app_head, flat_map_perm, P. }
  assert (Tg : forall x, In x (b_targets b') <-> In x (b_targets b)).
  { intros x. cbn. change (fold_left (fun acc x => sadd x acc) ?a ?b) with (set_union b a). rewrite !set_union_in.
    pose proof (flat_map_perm (fun i => tags b0 (instr_call i)) l l' P) as Pt.
    split; (intros [I|I]; [left; exact I | right; eapply Permutation_in; [|exact I]]); [symmetry; exact Pt | exact Pt]. }
  rewrite get_skill_timing_eq in *. cbv zeta in *.
  set (w := process_downtime_windows b) in *. set (w' := process_downtime_windows b').
  assert (Ew : forall t, windows_for w' t = windows_for w t) by (intros t; apply windows_of_targets; [reflexivity | exact Tg]).
  unfold presses_pass in *. change (sequence_log (with_windows b w)) with (sequence_log b) in G. change (timeds_log (with_windows b w)) with (timeds_log b) in G.
  change (sequence_log (with_windows b' w')) with (sequence_log b'). change (timeds_log (with_windows b' w')) with (timeds_log b').
  assert (El : sequence_log b' = sequence_log b) by (unfold sequence_log; rewrite Sq; reflexivity).
  assert (Et : timeds_log b' = timeds_log b) by (unfold timeds_log; rewrite Tm; reflexivity).
  rewrite El, Et. destruct (sequence_log b) as [slog|e]; [|discriminate G]. destruct (timeds_log b) as [tlog|e]; [|discriminate G]. cbn [bind] in *.
  change (b_stats (with_windows b w)) with (b_stats b0) in G. change (b_dots (with_windows b w)) with (b_dots b0) in G. change (b_stamps (with_windows b w)) with (b_stamps b0) in G.
  change (b_stats (with_windows b' w')) with (b_stats b0). change (b_dots (with_windows b' w')) with (b_dots b0). change (b_stamps (with_windows b' w')) with (b_stamps b0).
  destruct (log_pass (b_stats b0) (slog ++ tlog) q_init (b_dots b0) [] (b_stamps b0)) as [[[[q2 d2] p2] s2]|e]; [|discriminate G]. cbn [bind] in *.
  unfold timing_tail in *. cbn [b_ignore_trailing b_snap_dots b_autos b_fight_start b_windows with_windows b b' left_by] in *. rewrite Na in *. cbv iota in *. cbn [bind] in *.
  destruct (process_all_dots (b_snap_dots b0) d2 (if b_ignore_trailing b0 then get_last_event_time q2 else None) q2) as [q3|e]; [|discriminate G]. cbn [bind] in *.
  destruct (match b_fight_start b0 with Some _ => Ok (q3, p2) | None => shift_timelines q3 p2 end) as [[q5 pr]|e]; [|discriminate G]. cbn [bind] in *.
  rewrite (downtime_ext w' w q5 Ew). destruct (remove_damage_during_downtime w q5) as [q6|e]; [|discriminate G]. cbn [bind] in *. injection G as <-.
  eexists. split; [exact H'|]. split; [reflexivity|]. split; [reflexivity|]. split; reflexivity.
Qed.
