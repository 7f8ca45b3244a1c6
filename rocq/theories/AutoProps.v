(** * The autos of a run (C22, C23) *)

From Coq Require Import ZArith QArith Qround List String Bool Lia Permutation Sorted.
From Verif Require Import Base Float Heap Strings Types Lookup StatusEffect JobResource Combo
  Channeling Stats Library Events Rotation BaseFacts FloatFacts HeapFacts SpecCond CondFacts SpecQueue EventsFacts SpecPlay PlayFacts
  LogFacts SpecTimeline TimelineFacts SpecDots DotFacts SpecTrackers SpecAuto AutoFacts RunFacts SpecRun RunProps TimelineProps.
Import ListNotations.
Open Scope Z_scope.
Local Opaque fl.

Lemma autos_shown b b' :
  built b -> b_autos b = true -> get_skill_timing b = Ok b' ->
  exists slog tlog ticks au hits calls d last first,
    rotation_played b slog tlog
    /\ shows_timeline b b' (flat_map press_entries (slog ++ tlog) ++ ticks ++ calls) d
    /\ (b_fight_start b <> None -> d = 0)
    /\ (b_ignore_trailing b = false -> last = None)
    /\ (b_ignore_trailing b = true -> latest (map entry (flat_map press_entries (slog ++ tlog))) last)
    /\ first_ticks (b_snap_dots b) first
    /\ (distinguishable (flat_map press_dots (slog ++ tlog)) ->
        small_times (b_snap_dots b) (flat_map press_dots (slog ++ tlog)) ->
        exists ks, effects_of (flat_map press_dots (slog ++ tlog)) ks
          /\ all_ticks first last (flat_map press_dots (slog ++ tlog)) ks ticks)
    /\ autos_delivered b (map press_stamp (slog ++ tlog)) (map entry (flat_map press_entries (slog ++ tlog) ++ ticks)) last
         au hits calls.
Proof.
  intros B A H. apply run_spec in H; [|apply reachable_dots, built_reachable, B].
  destruct H as (slog & tlog & q2 & calls & d & H). cbv zeta in H.
  destruct H as (H1 & Q2 & _ & _ & H4 & H5 & _ & _ & _ & H6). destruct (H6 A) as (au & hits & H7).
  destruct (built_fresh b B) as (Bd & Bs). rewrite Bs in H7. rewrite Bd in *. cbn [app] in H7.
  eexists slog, tlog, _, au, hits, calls, d, (if b_ignore_trailing b then get_last_event_time q2 else None), (dot_first_tick (b_snap_dots b)).
  split; [exact H1|]. split; [exact H5|]. split; [intros N; unfold moves in H4; destruct (b_fight_start b); [exact H4 | congruence]|].
  split; [intros ->; reflexivity|]. split; [intros ->; apply last_of_entries, Q2|]. split; [apply first_ticks_model|].
  split; [|exact H7]. intros Di Sm. apply all_dot_calls_spec; [exact Di | apply log_dots_dot|]. intros x Hx. eapply small_first; eassumption.
Qed.

(** ** Reading the chain *)

Lemma autos_first b base auto delay last done t hits :
  autos b base auto delay last done t hits ->
  (hits = [] /\ last <= t + delay) \/ (exists h l, hits = h :: l /\ hit_time h = t /\ t + delay < last).
Proof. inversion 1; subst; [left; auto | right | right]; eexists; eexists; (split; [reflexivity|]); auto. Qed.

Lemma autos_each b base auto delay last done t hits :
  autos b base auto delay last done t hits ->
  forall pre h post, hits = (pre ++ h :: post)%list ->
    hit_time h + delay < last
    /\ (exists buffs debuffs, hit_gap h = hasted_delay (b_stats b) buffs debuffs
          /\ auto_effects b (base ++ map entry (map (hit_call auto delay) (done ++ pre ++ [h]))) (hit_time h) auto buffs debuffs)
    /\ match post with
       | h' :: _ => next_auto b (hit_target h) (hit_time h + hit_gap h) (Fin (hit_time h'))
       | [] => next_auto b (hit_target h) (hit_time h + hit_gap h) Inf
               \/ exists t', next_auto b (hit_target h) (hit_time h + hit_gap h) (Fin t') /\ last <= t' + delay
       end.
Proof.
  induction 1 as [done t L|done t target buffs debuffs L Ef Nx|done t target buffs debuffs t' l L Ef Nx C IH]; intros pre h post E.
  - destruct pre; discriminate E.
  - destruct pre as [|x pre]; [|destruct pre; discriminate E]. injection E as <- <-. cbn [hit_time hit_gap hit_target app] in *.
    split; [exact L|]. split; [exists buffs, debuffs; auto|]. left. exact Nx.
  - destruct pre as [|x pre].
    + injection E as <- <-. cbn [hit_time hit_gap hit_target app]. split; [exact L|]. split; [exists buffs, debuffs; auto|].
      apply autos_first in C as [(-> & M)|(h' & l' & -> & T & _)].
      * right. exists t'. auto.
      * rewrite T. exact Nx.
    + injection E as <- ->. destruct (IH pre h post eq_refl) as (A & (bu & de & B1 & B2) & D). split; [exact A|]. split; [|exact D].
      exists bu, de. split; [exact B1|]. rewrite <- app_assoc in B2. exact B2.
Qed.

Lemma hits_apart b base auto delay last done t hits :
  autos b base auto delay last done t hits ->
  forall pre h h' post, hits = (pre ++ h :: h' :: post)%list -> hit_time h + hit_gap h <= hit_time h'.
Proof.
  intros A pre h h' post E. destruct (autos_each _ _ _ _ _ _ _ _ A _ _ _ E) as (_ & _ & N). cbn in N. apply next_auto_le in N. exact N.
Qed.

Lemma delivered_facts b presses base last0 au hits calls :
  autos_delivered b presses base last0 au hits calls ->
  exists spec first last,
    sk_timing au = COne spec
    /\ earliest_damage base first
    /\ (match last0 with Some t => last = t | None => latest base (Some last) end)
    /\ (last <= first + application_delay spec -> hits = [])
    /\ (first + application_delay spec < last -> exists h l, hits = h :: l /\ hit_time h = first)
    /\ (forall h, In h hits -> hit_time h + application_delay spec < last)
    /\ (forall pre h h' post, hits = (pre ++ h :: h' :: post)%list -> hit_time h + hit_gap h <= hit_time h')
    /\ (forall pre h, hits = (pre ++ [h])%list ->
          next_auto b (hit_target h) (hit_time h + hit_gap h) Inf
          \/ exists t', next_auto b (hit_target h) (hit_time h + hit_gap h) (Fin t') /\ last <= t' + application_delay spec).
Proof.
  intros (spec & first & last & _ & H1 & H2 & H3 & A & _). exists spec, first, last. split; [exact H1|]. split; [exact H2|]. split; [exact H3|].
  split; [|split; [|split; [|split]]].
  - intros L. apply autos_first in A as [(-> & _)|(h & l & _ & _ & M)]; [reflexivity | lia].
  - intros L. apply autos_first in A as [(_ & M)|(h & l & -> & T & _)]; [lia|]. eauto.
  - intros h I. apply in_split in I as (pre & post & E). apply (autos_each _ _ _ _ _ _ _ _ A _ _ _ E).
  - intros pre h h' post E. eapply hits_apart; eassumption.
  - intros pre h E. destruct (autos_each _ _ _ _ _ _ _ _ A _ _ _ E) as (_ & _ & N). exact N.
Qed.

(** ** C23 *)


Lemma kept_out b base auto delay last done t hits :
  autos b base auto delay last done t hits ->
  forall pre h h' post ps, hits = (pre ++ h :: h' :: post)%list ->
    get_no_auto_periods b = Ok ps ->
    (separate_periods ps -> forall p, In p ps -> ~ inside p (hit_time h'))
    /\ (separate_windows (SpecTimeline.windows_of b (hit_target h)) -> (forall p, In p ps -> snd p <> Fin (hit_time h')) ->
        ~ in_downtime (SpecTimeline.windows_of b (hit_target h)) (hit_time h') DC_AUTO).
Proof.
  intros A pre h h' post ps E P. destruct (autos_each _ _ _ _ _ _ _ _ A _ _ _ E) as (_ & _ & N). cbn in N.
  destruct N as (t1 & ps' & D & P' & W). rewrite P in P'. injection P' as <-. split.
  - intros S p Hp (I1 & I2). destruct W as [(W & Nc)|((p' & Hp' & (C1 & C2) & W) & _)].
    + injection W as W. rewrite W in *. apply (Nc p Hp). split; [exact I1|]. destruct (snd p); cbn; [lia | exact I].
    + pose proof (S p' p (hit_time h') Hp' Hp (eq_sym W) I1) as L. rewrite <- W in L. destruct (snd p); cbn in L; [lia | exact L].
  - intros S X (r & Hr & R1 & R2 & R3). destruct W as [(W & _)|((p' & Hp' & _ & W) & _)]; [|exact (X p' Hp' (eq_sym W))].
    injection W as W. rewrite W in *. destruct D as [(-> & D)|(r' & Hr' & _ & _ & _ & D)].
    + apply D. exists r. auto.
    + apply (S r' r Hr' Hr). rewrite D. auto.
Qed.

(** ** What [get_no_auto_periods] returns *)

Lemma heappop_perm {A} (lt : A -> A -> res bool) h x h' : heappop lt h = Ok (x, h') -> Permutation h (x :: h').
Proof.
  destruct h as [|top t]; [discriminate|]. intros H. pose proof (removelast_perm top t top) as P.
  unfold heappop in H. destruct (removelast (top :: t)) as [|r rest] eqn:Er.
  - injection H as <- <-. exact P.
  - assert (r = top).
    { pose proof (nth_error_removelast (top :: t) 0 r) as Hr. rewrite Er in Hr. specialize (Hr eq_refl). cbn in Hr. congruence. }
    subst r. set (z := List.last (top :: t) top) in *. inv_bind H. destruct a as [h2 pos]. inv_bind H. injection H as <- <-.
    rewrite P. apply siftup_leaf_perm in E. apply siftdown_perm in E0. rewrite perm_swap. constructor. rewrite E. exact E0.
Qed.
Lemma drain_perm {A} (lt : A -> A -> res bool) fuel : forall h l, drain lt fuel h = Ok l -> Permutation h l.
Proof.
  induction fuel as [|fuel IH]; intros h l; destruct h as [|a h]; cbn [drain]; intros H; try discriminate H;
    try (injection H as <-; reflexivity).
  inv_bind H. destruct a0 as [x h']. inv_bind H. injection H as <-. apply heappop_perm in E. rewrite E. constructor. apply IH, E0.
Qed.
Lemma timed_drain_sorted fuel l order : StronglySorted (fun x y => tm_time x <= tm_time y) l ->
  drain timed_lt fuel l = Ok order -> StronglySorted (fun x y => tm_time x <= tm_time y) order.
Proof.
  intros S H. eapply (drain_spec timed_lt timed_le) in H as [P S'].
  - exact S'.
  - intros a; unfold timed_le; lia.
  - intros a b c; unfold timed_le; lia.
  - exact timed_lt_true.
  - exact timed_lt_false.
  - apply sorted_is_heap. exact S.
Qed.
Lemma sort_perm {A} (ltb : A -> A -> bool) l : Permutation (sort_lt ltb l) l.
Proof.
  unfold sort_lt. assert (G : forall acc, Permutation (fold_left (fun acc a => insert_lt ltb a acc) l acc) (acc ++ l)).
  { induction l as [|a l IH]; intros acc; cbn [fold_left]; [rewrite app_nil_r; reflexivity|].
    rewrite IH, insert_lt_perm. cbn. apply Permutation_middle. }
  apply (G []).
Qed.

Definition use_of (x : timed) : ch_use := (tm_time x, tm_skill x, tm_modifier x).

Lemma compile_press_faces tk t s asked tk1 m bu de :
  compile_press tk t s asked = Ok (tk1, m, bu, de) -> faces tk t s asked m bu tk1.
Proof.
  unfold compile_press. intros H. inv_bind H. destruct a as [s1 [b1 mb]]. inv_bind H. destruct a as [s2 [d1 md]].
  destruct (compile_job_resources (tk_jr tk) t (sk_name s)) as [j mj] eqn:J. inv_bind H. destruct a as [ct mc].
  injection H as <- <- <- <-. exists s1, s2, j, ct, mb, d1, md, mj, mc. eexists. repeat (split; [first [eassumption | reflexivity]|]). reflexivity.
Qed.
Lemma no_auto_fold b l : forall tk ch casts r,
  foldM (no_auto_step b) l (tk, ch, casts) = Ok r ->
  foldM ch_process (map use_of l) ch = Ok (snd (fst r))
  /\ exists ps, cast_periods (b_stats b) (b_default_target b) tk l ps /\ snd r = (casts ++ ps)%list.
Proof.
  induction l as [|x l IH]; intros tk ch casts r; cbn [foldM map].
  - intros H; injection H as <-. split; [reflexivity|]. exists []. rewrite app_nil_r. split; [constructor | reflexivity].
  - intros H. inv_bind H. unfold no_auto_step in E. inv_bind E. rename a0 into ch1. inv_bind E. destruct a0 as [[[tk1 m1] bu] de].
    inv_bind E. rename a0 into ts. inv_bind E. rename a0 into c. inv_bind E. rename a0 into se'. inv_bind E. rename a0 into jr'. injection E as <-.
    cbn [ch_process use_of]. unfold ch_process, use_of. rewrite E0. cbn [bind]. apply IH in H as (A & ps & B & C). split; [exact A|].
    apply cast_time_spec in E3 as (Ct & Nn). apply compile_press_faces in E1.
    rewrite C. exists ((if 0 <? c then [(tm_time x, Fin (tm_time x + c))] else []) ++ ps)%list. split.
    + eapply cp_press; [exact E1|exact E2|exact Ct|exact Nn| | | |exact B].
      * exists se', jr'. auto.
      * intros ->. reflexivity.
      * intros L. apply Z.ltb_lt in L. rewrite L. reflexivity.
    + destruct (0 <? c); [rewrite <- app_assoc|]; reflexivity.
Qed.

Lemma no_auto_periods_spec b ps :
  get_no_auto_periods b = Ok ps ->
  exists tk order channels casts,
    new_trackers (b_library b) (st_job (b_stats b)) (b_priority b) = Ok tk
    /\ Permutation (b_timed b) order
    /\ (StronglySorted (fun x y => tm_time x <= tm_time y) (b_timed b) -> StronglySorted (fun x y => tm_time x <= tm_time y) order)
    /\ channel_run (map use_of order) = Ok channels
    /\ cast_periods (b_stats b) (b_default_target b) tk order casts
    /\ Permutation ps (channels ++ casts).
Proof.
  unfold get_no_auto_periods. intros H. inv_bind H. inv_bind H. rename a0 into order. inv_bind H. destruct a0 as [[tk ch] casts].
  inv_bind H. inv_bind H. injection H as <-. apply no_auto_fold in E1 as (A & cp & B & C). cbn [fst snd app] in *. subst cp.
  exists a, order, a1, casts. split; [exact E|]. split; [eapply drain_perm, E0|]. split; [|split; [|split; [exact B|]]].
  - intros S. eapply timed_drain_sorted; eassumption.
  - unfold channel_run. rewrite A. cbn [bind]. rewrite E2. exact E3.
  - apply sort_perm.
Qed.

Lemma delivered_delays b presses base last0 au hits calls :
  autos_delivered b presses base last0 au hits calls ->
  exists spec, sk_timing au = COne spec
    /\ calls = map (hit_call au (application_delay spec)) hits
    /\ forall pre h post, hits = (pre ++ h :: post)%list ->
         exists buffs debuffs, hit_gap h = hasted_delay (b_stats b) buffs debuffs
           /\ auto_effects b (base ++ map entry (map (hit_call au (application_delay spec)) (pre ++ [h]))) (hit_time h) au buffs debuffs.
Proof.
  intros (spec & first & last & _ & H1 & _ & _ & A & H2 & _). exists spec. split; [exact H1|]. split; [exact H2|].
  intros pre h post E. destruct (autos_each _ _ _ _ _ _ _ _ A _ _ _ E) as (_ & D & _). exact D.
Qed.

Lemma next_auto_free b target due e :
  next_auto b target due e ->
  ~ in_downtime (SpecTimeline.windows_of b target) due DC_AUTO ->
  (forall ps p, get_no_auto_periods b = Ok ps -> In p ps -> ~ covers p due) ->
  e = Fin due.
Proof.
  intros (t & ps & D & P & W) N C. assert (t = due) as ->.
  { destruct D as [(-> & _)|(r & D1 & D2 & D3 & D4 & _)]; [reflexivity|]. exfalso. apply N. exists r. auto. }
  destruct W as [(-> & _)|((p & W1 & W2 & _) & _)]; [reflexivity|]. exfalso. exact (C ps p P W1 W2).
Qed.

Lemma delivered_targets b presses base last0 au hits calls h :
  autos_delivered b presses base last0 au hits calls ->
  Forall (fun h => 0 <= hit_gap h) hits -> In h hits ->
  main_target presses (hit_time h) (hit_target h).
Proof.
  intros (spec & first & last & _ & _ & _ & _ & _ & _ & T) G. specialize (T G). rewrite Forall_forall in T. apply T.
Qed.

Lemma delivered_kept_out b presses base last0 au hits calls pre h h' post ps :
  autos_delivered b presses base last0 au hits calls ->
  hits = (pre ++ h :: h' :: post)%list ->
  get_no_auto_periods b = Ok ps ->
  (separate_periods ps -> forall p, In p ps -> ~ inside p (hit_time h'))
  /\ (separate_windows (SpecTimeline.windows_of b (hit_target h)) -> (forall p, In p ps -> snd p <> Fin (hit_time h')) ->
      ~ in_downtime (SpecTimeline.windows_of b (hit_target h)) (hit_time h') DC_AUTO).
Proof.
  intros (spec & first & last & _ & _ & _ & _ & A & _) E P. exact (kept_out _ _ _ _ _ _ _ _ A pre h h' post ps E P).
Qed.

Lemma auto_not_in_downtime b b' e target :
  reachable b -> get_skill_timing b = Ok b' ->
  In e (timeline b') -> damages e DC_AUTO -> In target (ev_targets e) ->
  ~ in_downtime (SpecTimeline.windows_of b target) (ev_primary e) DC_AUTO.
Proof.
  intros R H I D T. pose proof (all_spared b b' e target R H I T) as S. apply (S _ (ev_time e) D).
  unfold effect_time, ev_time. destruct (ev_secondary e); [left | right]; auto.
Qed.
