(** * Facts about [get_skill_timing] as a whole *)

From Coq Require Import ZArith QArith List String Bool Lia Permutation Sorted.
From Verif Require Import Base Float Heap Strings Types Lookup StatusEffect JobResource Combo
  Channeling Stats Library Events Rotation BaseFacts FloatFacts HeapFacts SpecQueue EventsFacts SpecPlay PlayFacts
  LogFacts SpecTimeline TimelineFacts SpecDots DotFacts SpecAuto AutoFacts.
Import ListNotations.
Open Scope Z_scope.

(** ** Entries are plain *)

Lemma press_entries_plain p : pl_targets p <> [] -> Forall plain (press_entries p).
Proof.
  intros N. unfold press_entries. constructor; [repeat split; exact N|].
  generalize 1. induction (pl_follow_ups p) as [|fu fus IH]; intros k; cbn [numbered]; [constructor|].
  apply Forall_app. split; [|apply IH]. unfold follow_up_entries. destruct (fu_dot fu); [constructor|].
  constructor; [|constructor]. split; [reflexivity|]. split; [|repeat split]. cbn.
  destruct (fu_primary_only fu); [destruct (pl_targets p); [congruence | discriminate] | exact N].
Qed.
Lemma log_entries_plain st log : Forall (well_played st) log -> Forall plain (flat_map press_entries log).
Proof.
  induction 1 as [|p l W F IH]; cbn [flat_map]; [constructor|]. apply Forall_app. split; [|exact IH].
  apply press_entries_plain. apply W.
Qed.
Lemma tick_entries_plain fu target l n : Forall plain (tick_entries fu target n l).
Proof.
  revert n; induction l as [|[e t] l IH]; intros n; cbn; constructor; [|apply IH]. repeat split. discriminate.
Qed.
Lemma all_dot_calls_plain server last d : Forall plain (all_dot_calls server last d).
Proof.
  unfold all_dot_calls. apply Forall_forall. intros c H. apply in_flat_map in H as (kv & _ & H).
  apply in_flat_map in H as (x & _ & H). unfold dot_calls in H. destruct (fu_dot (fst x)); [|destruct H].
  revert H. apply Forall_forall, tick_entries_plain.
Qed.
Lemma auto_entry_plain c : is_auto_entry c -> plain c.
Proof. intros (au & s & a & t & ->). repeat split. discriminate. Qed.

(** ** Autos only add entries *)

Lemma auto_loop_adds fuel : forall b stamps au delay wd last qu snapshot ind qu',
  auto_loop fuel b stamps au delay wd last qu snapshot ind = Ok qu' ->
  exists calls, foldM api_add calls qu = Ok qu' /\ Forall is_auto_entry calls.
Proof.
  induction fuel as [|fuel IH]; intros b stamps au delay wd last qu snapshot ind qu'; cbn [auto_loop].
  - destruct (negb _); [|discriminate]. intros H; injection H as <-. exists []. split; [reflexivity | constructor].
  - destruct (negb _); [intros H; injection H as <-; exists []; split; [reflexivity | constructor]|].
    intros H. inv_bind H. destruct a as [t0 target]. inv_bind H.
    assert (G : exists calls, foldM api_add calls a = Ok qu' /\ Forall is_auto_entry calls).
    { inv_bind H. inv_bind H. destruct a1 as [bu de]. inv_bind H. inv_bind H. destruct a2 as [t|].
      - apply IH in H. exact H.
      - injection H as <-. exists []. split; [reflexivity | constructor]. }
    destruct G as (calls & F & P).
    exists (auto_entry au snapshot (snapshot + delay) target :: calls). split.
    + cbn [foldM]. change (api_add qu (auto_entry au snapshot (snapshot + delay) target)) with
        (q_add_new qu (time_to_prio snapshot) snapshot (Some (snapshot + delay)) au default_modifier (SFlag true, SFlag true) [target]).
      rewrite E0. exact F.
    + constructor; [|exact P]. exists au, snapshot, (snapshot + delay), target. reflexivity.
Qed.
Lemma add_autos_adds b sp last qu qu' :
  add_autos b sp last qu = Ok qu' -> exists calls, foldM api_add calls qu = Ok qu' /\ Forall is_auto_entry calls.
Proof.
  unfold add_autos. intros H. inv_bind H. inv_bind H. inv_bind H. inv_bind H. inv_bind H. inv_bind H.
  apply auto_loop_adds in H. exact H.
Qed.

Lemma Permutation_refl_eq {A} (l m : list A) : l = m -> Permutation l m.
Proof. intros ->. reflexivity. Qed.

(** ** Shift *)

Lemma good_fresh_anon qu : good qu -> Forall (fun e => ev_targets e <> []) (map anon (q_heap qu)).
Proof.
  intros (_ & F). rewrite Forall_map. eapply Forall_impl; [|exact F]. intros e (_ & H & _). exact H.
Qed.

Lemma earlier_0 e : earlier 0 e = e.
Proof.
  destruct e as [p t1 t2 s m sn tg i a b c]. unfold earlier; cbn. rewrite !Z.sub_0_r.
  destruct t2; [rewrite Z.sub_0_r|]; reflexivity.
Qed.
Lemma press_earlier_0 e : press_earlier 0 e = e.
Proof. destruct e. unfold press_earlier; cbn. rewrite Z.sub_0_r. reflexivity. Qed.
Lemma map_id_ext {A} (f : A -> A) l : (forall x, f x = x) -> map f l = l.
Proof. intros H. rewrite (map_ext f (fun x => x)) by exact H. apply map_id. Qed.

Lemma shift_timelines_spec qu pr qu' pr' :
  good qu -> shift_timelines qu pr = Ok (qu', pr') ->
  exists d, moves None (map anon (q_heap qu)) d /\ good qu'
    /\ Permutation (map anon (q_heap qu')) (map (earlier d) (map anon (q_heap qu)))
    /\ pr' = map (press_earlier d) pr.
Proof.
  intros (I & F) H. unfold shift_timelines in H. inv_bind H. apply get_first_damage_spec in E. destruct a as [d|].
  - inv_bind H. inv_bind H. injection H as <- <-. exists d. split; [left; exact E|].
    apply q_drain_spec in E0 as (P & S); [|exact I]. rewrite shift_fold in E1.
    assert (Fa : Forall fresh a) by (rewrite <- P; exact F).
    split; [|split; [|reflexivity]].
    + eapply adds_good; [exact E1 | | exact good_init]. rewrite Forall_map. eapply Forall_impl; [|exact Fa].
      intros e. apply shift_call_plain.
    + apply adds_bag in E1. cbn in E1. rewrite E1, P, !map_map. apply Permutation_refl_eq, map_ext_in.
      rewrite Forall_forall in Fa. intros e He. apply shift_call_entry, Fa, He.
  - injection H as <- <-. exists 0. split; [|split; [split; assumption|split]].
    + right. split; [reflexivity|]. intros e c He. apply in_map_iff in He as (e0 & <- & He). exact (E e0 c He).
    + rewrite (map_id_ext (earlier 0)) by apply earlier_0. reflexivity.
    + rewrite (map_id_ext (press_earlier 0)) by apply press_earlier_0. reflexivity.
Qed.

(** ** Downtime removal *)

Lemma remove_downtime_spec w qu qu' :
  good qu -> remove_damage_during_downtime w qu = Ok qu' ->
  good qu'
  /\ (exists evs, downtimed (windows_for w) (map anon (q_heap qu)) evs /\ Permutation (map anon (q_heap qu')) evs)
  /\ numbered_ids (q_heap qu').
Proof.
  intros (I & F) H. unfold remove_damage_during_downtime in H. inv_bind H.
  apply q_drain_spec in E as (P & S); [|exact I].
  assert (Fa : Forall fresh a) by (rewrite <- P; exact F).
  apply downtime_fold in H as (evs' & D & A).
  assert (Fe : Forall fresh evs') by (eapply downtimed_forall; [exact D | exact Fa | apply fresh_targets]).
  assert (Pl : Forall plain (map rebuild_call evs')).
  { rewrite Forall_map. eapply Forall_impl; [|exact Fe]. intros e (_ & T & _). split; [reflexivity|]. split; [exact T|]. auto. }
  assert (En : map entry (map rebuild_call evs') = map anon evs').
  { rewrite map_map. apply map_ext_in. intros e He. rewrite Forall_forall in Fe. apply rebuild_entry, Fe, He. }
  split; [eapply adds_good; [exact A | exact Pl | exact good_init]|]. split.
  - destruct (downtimed_perm _ _ _ (Permutation_map anon (Permutation_sym P)) _ (downtimed_anon _ _ _ D)) as (m' & D' & P').
    exists m'. split; [exact D'|]. apply adds_bag in A. cbn in A. rewrite A, En. exact P'.
  - apply adds_ids in A; [|exact Pl]. destruct A as (out & P1 & Ids & An). exists out. split; [exact P1|].
    rewrite En in An. split.
    + assert (S' : StronglySorted key_le evs').
      { clear - D S. induction D as [|e l l' K D IH|e tg l l' K N D IH]; [constructor| |]; inversion S as [|? ? S1 F1]; subst.
        - apply IH, S1.
        - constructor; [apply IH, S1|].
          assert (X : Forall (key_le e) l'); [|exact X].
          eapply downtimed_forall; [exact D | exact F1|]. intros e' tg' K' _. exact K'. }
      clear - S' An. revert out An. induction S' as [|e l S IH F1]; intros out An.
      * destruct out; [constructor | discriminate An].
      * destruct out as [|o out]; [discriminate An|]. pose proof (f_equal (hd (anon o)) An) as A1. pose proof (f_equal (@tl _) An) as A2. cbn [map hd tl] in A1, A2.
        assert (K1 : ev_priority o = ev_priority e) by (apply (f_equal ev_priority) in A1; exact A1).
        assert (K2 : ev_skill o = ev_skill e) by (apply (f_equal ev_skill) in A1; exact A1).
        constructor; [apply IH, A2|]. clear - F1 A2 K1 K2. revert l F1 A2.
        induction out as [|o' out IH]; intros l F1 A2; [constructor|]. destruct l as [|e' l]; [discriminate A2|].
        inversion F1 as [|? ? L1 L2]; subst. pose proof (f_equal (hd (anon o')) A2) as B1. pose proof (f_equal (@tl _) A2) as B2. cbn [map hd tl] in B1, B2.
        constructor; [|eapply IH; eassumption].
        assert (K3 : ev_priority o' = ev_priority e') by (apply (f_equal ev_priority) in B1; exact B1).
        assert (K4 : ev_skill o' = ev_skill e') by (apply (f_equal ev_skill) in B1; exact B1).
        unfold key_le. rewrite K1, K2, K3, K4. exact L1.
    + rewrite Ids. f_equal. f_equal. rewrite map_length. apply (f_equal (@List.length _)) in An. rewrite !map_length in An. symmetry. exact An.
Qed.

(** ** The presses *)

Lemma presses_pass_spec b q2 d2 pr2 sp2 :
  presses_pass b = Ok (q2, d2, pr2, sp2) ->
  exists slog tlog, (sequence_log b = Ok slog /\ timeds_log b = Ok tlog) /\ rotation_played b slog tlog
    /\ foldM api_add (flat_map press_entries (slog ++ tlog)) q_init = Ok q2
    /\ d2 = fold_left record_dot (flat_map press_dots (slog ++ tlog)) (b_dots b)
    /\ pr2 = map (press_record (st_job (b_stats b))) (slog ++ tlog)
    /\ sp2 = (b_stamps b ++ map press_stamp (slog ++ tlog))%list.
Proof.
  unfold presses_pass, log_pass. intros H. inv_bind H. inv_bind H. inv_bind H. injection H as <- <- <- <-.
  exists a, a0. split; [split; assumption|]. apply sequence_log_spec in E as (S1 & S2 & S3 & S4 & tk & S5 & S6). apply timeds_log_spec in E0 as (order & T1 & T2 & T3 & T4 & T5 & tk' & T6 & T7).
  split; [|split; [exact E1 | repeat split; reflexivity]].
  split; [exact S1|]. split; [exact S4|]. split; [exists order; split; [exact T1|]; split; [exact T2 | exact T3]|].
  split; [apply Forall_app; auto|]. split; [apply Forall_app; auto|].
    exists tk. split; [exact S5|]. split; [exact S6|]. rewrite S5 in T6. injection T6 as <-. exact T7.
Qed.

Lemma sort_presses pr : in_time_order pr (sort_by pr_time pr).
Proof.
  split; [exact (sort_by_sorted pr_time pr)|]. split; [symmetry; apply sort_by_perm|].
  intros t. apply sort_by_stable.
Qed.

Definition ready_dots (b : builder) : Prop := dots_ok (b_dots b).

(** Everything a run does. *)
Lemma run_logs b b' :
  get_skill_timing b = Ok b' -> dots_ok (b_dots b) ->
  exists slog tlog q2 autos d,
    let log := (slog ++ tlog)%list in
    let last := if b_ignore_trailing b then get_last_event_time q2 else None in
    let ticks := all_dot_calls (b_snap_dots b) last (fold_left record_dot (flat_map press_dots log) (b_dots b)) in
    let all := map entry (flat_map press_entries log ++ ticks ++ autos) in
    (sequence_log b = Ok slog /\ timeds_log b = Ok tlog)
    /\ rotation_played b slog tlog
    /\ foldM api_add (flat_map press_entries log) q_init = Ok q2
    /\ Forall is_auto_entry autos /\ (b_autos b = false -> autos = [])
    /\ moves (b_fight_start b) all d
    /\ (exists evs, downtimed (windows_of b) (map (earlier d) all) evs /\ Permutation (timeline b') evs)
    /\ numbered_ids (q_heap (b_queue b'))
    /\ in_time_order (map (press_earlier d) (map (press_record (st_job (b_stats b))) log)) (get_button_press_timing b')
    /\ good (b_queue b')
    /\ (b_autos b = true -> exists au hits,
          autos_delivered b (b_stamps b ++ map press_stamp log) (map entry (flat_map press_entries log ++ ticks)) last au hits autos).
Proof.
  intros H Dk. rewrite get_skill_timing_eq in H. cbv zeta in H.
  inv_bind H. destruct a as [[[q2 d2] pr2] sp2]. apply presses_pass_spec in E as (slog & tlog & Lg & R & Q2 & D2 & P2 & S2).
  exists slog, tlog, q2. cbv zeta. unfold timing_tail in H. cbn [b_ignore_trailing b_snap_dots b_autos b_fight_start b_windows b_stats with_windows] in *.
  set (last := if b_ignore_trailing b then get_last_event_time q2 else None) in *.
  change (b_dots (with_windows b (process_downtime_windows b))) with (b_dots b) in D2.
  assert (Dk2 : dots_ok d2) by (rewrite D2; apply record_dots_ok; [exact Dk | apply log_dots_dot]).
  rewrite process_all_dots_eq in H by exact Dk2. rewrite D2 in H.
  set (ticks := all_dot_calls (b_snap_dots b) last (fold_left record_dot (flat_map press_dots (slog ++ tlog)) (b_dots b))) in *.
  inv_bind H. rename a into q3. rename E into Q3.
  inv_bind H. rename a into q4. rename E into Q4.
  assert (Au : exists autos, foldM api_add autos q3 = Ok q4 /\ Forall is_auto_entry autos /\ (b_autos b = false -> autos = [])
     /\ (b_autos b = true -> exists au hits,
          autos_delivered b (b_stamps b ++ map press_stamp (slog ++ tlog)) (map entry (flat_map press_entries (slog ++ tlog) ++ ticks)) last au hits autos)).
  { destruct (b_autos b).
    - apply (add_autos_spec _ _ _ (map entry (flat_map press_entries (slog ++ tlog) ++ ticks))) in Q4.
      + destruct Q4 as (au & hits & calls & C1 & C2). exists calls. split; [exact C2|]. split; [eapply delivered_entries, C1|].
        split; [discriminate|]. intros _. exists au, hits. rewrite S2 in C1. exact C1.
      + apply windows_for_of.
      + apply adds_bag in Q2. apply adds_bag in Q3. rewrite Q3, Q2, map_app. reflexivity.
    - injection Q4 as <-. exists []. split; [reflexivity|]. split; [constructor|]. split; [reflexivity | discriminate]. }
  destruct Au as (autos & A1 & A2 & A3 & A4). exists autos.
  pose proof R as (_ & _ & _ & Wp & _).
  assert (Pl2 : Forall plain (flat_map press_entries (slog ++ tlog))) by (eapply log_entries_plain; exact Wp).
  assert (G2 : good q2) by (eapply adds_good; [exact Q2 | exact Pl2 | exact good_init]).
  assert (G3 : good q3) by (eapply adds_good; [exact Q3 | apply all_dot_calls_plain | exact G2]).
  assert (G4 : good q4).
  { eapply adds_good; [exact A1 | | exact G3]. eapply Forall_impl; [|exact A2]. intros c. apply auto_entry_plain. }
  assert (B4 : Permutation (map anon (q_heap q4)) (map entry (flat_map press_entries (slog ++ tlog) ++ ticks ++ autos))).
  { apply adds_bag in Q2. apply adds_bag in Q3. apply adds_bag in A1. rewrite A1, Q3, Q2. cbn.
    rewrite !map_app, app_assoc. reflexivity. }
  inv_bind H. destruct a as [q5 pr5].
  assert (Sh : exists d, moves (b_fight_start b) (map anon (q_heap q4)) d /\ good q5
     /\ Permutation (map anon (q_heap q5)) (map (earlier d) (map anon (q_heap q4))) /\ pr5 = map (press_earlier d) pr2).
  { destruct (b_fight_start b) as [t|].
    - injection E as <- <-. exists 0. split; [reflexivity|]. split; [exact G4|].
      rewrite (map_id_ext (earlier 0)) by apply earlier_0. rewrite (map_id_ext (press_earlier 0)) by apply press_earlier_0. auto.
    - apply shift_timelines_spec in E; [exact E | exact G4]. }
  destruct Sh as (d & M & G5 & B5 & ->). exists d. inv_bind H. rename a into q6. injection H as <-.
  apply remove_downtime_spec in E0 as (G6 & (evs & Dt & P6) & Ids); [|exact G5].
  split; [exact Lg|]. split; [exact R|]. split; [exact Q2|]. split; [exact A2|]. split; [exact A3|].
  split.
  { unfold moves in *. destruct (b_fight_start b) as [t|]; [exact M|]. destruct M as [(X & Y)|(-> & X)].
    - left. split.
      + destruct X as (e & c & He & Hc). exists e, c. split; [|exact Hc]. eapply Permutation_in; [exact B4 | exact He].
      + intros e c t He. apply Y. eapply Permutation_in; [apply Permutation_sym, B4 | exact He].
    - right. split; [reflexivity|]. intros e c He. apply X. eapply Permutation_in; [apply Permutation_sym, B4 | exact He]. }
  split.
  { assert (W : forall l l', downtimed (windows_for (process_downtime_windows b)) l l' -> downtimed (windows_of b) l l').
    { assert (Sp : forall e x, spared (windows_for (process_downtime_windows b)) e x <-> spared (windows_of b) e x).
      { intros e x. unfold spared. rewrite windows_for_of. reflexivity. }
      assert (K : forall e l l', kept (spared (windows_for (process_downtime_windows b)) e) l l' -> kept (spared (windows_of b) e) l l').
      { intros e l l'. induction 1; constructor; try assumption; [apply Sp; assumption|]. rewrite <- Sp. assumption. }
      induction 1; [apply dt_nil | apply dt_gone; auto | apply dt_stays; auto]. }
    apply W in Dt.
    assert (PP : Permutation (map anon (q_heap q5)) (map (earlier d) (map entry (flat_map press_entries (slog ++ tlog) ++ ticks ++ autos)))).
    { rewrite B5, B4. reflexivity. }
    destruct (downtimed_perm _ _ _ PP _ Dt) as (m' & Dm & Pm). exists m'. split; [exact Dm|].
    unfold timeline. cbn. rewrite P6. exact Pm. }
  split; [exact Ids|]. split; [|split; [exact G6 | exact A4]].
  unfold get_button_press_timing. cbn [b_press with_results]. rewrite sort_by_idem, P2. apply sort_presses.
Qed.
Lemma run_spec b b' :
  get_skill_timing b = Ok b' -> dots_ok (b_dots b) ->
  exists slog tlog q2 autos d,
    let log := (slog ++ tlog)%list in
    let last := if b_ignore_trailing b then get_last_event_time q2 else None in
    let ticks := all_dot_calls (b_snap_dots b) last (fold_left record_dot (flat_map press_dots log) (b_dots b)) in
    let all := map entry (flat_map press_entries log ++ ticks ++ autos) in
    rotation_played b slog tlog
    /\ foldM api_add (flat_map press_entries log) q_init = Ok q2
    /\ Forall is_auto_entry autos /\ (b_autos b = false -> autos = [])
    /\ moves (b_fight_start b) all d
    /\ (exists evs, downtimed (windows_of b) (map (earlier d) all) evs /\ Permutation (timeline b') evs)
    /\ numbered_ids (q_heap (b_queue b'))
    /\ in_time_order (map (press_earlier d) (map (press_record (st_job (b_stats b))) log)) (get_button_press_timing b')
    /\ good (b_queue b')
    /\ (b_autos b = true -> exists au hits,
          autos_delivered b (b_stamps b ++ map press_stamp log) (map entry (flat_map press_entries log ++ ticks)) last au hits autos).
Proof.
  intros H D. destruct (run_logs b b' H D) as (slog & tlog & q2 & autos & d & X). cbv zeta in X. destruct X as (_ & X).
  exists slog, tlog, q2, autos, d. cbv zeta. exact X.
Qed.
