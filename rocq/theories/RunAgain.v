(** * Calling [get_skill_timing] again (C21) *)

From Coq Require Import ZArith QArith List String Bool Lia Permutation Sorted.
From Verif Require Import Base Float Heap Strings Types Lookup StatusEffect JobResource Combo
  Channeling Stats Library Events Rotation BaseFacts FloatFacts HeapFacts SpecQueue EventsFacts SpecPlay PlayFacts
  LogFacts SpecTimeline TimelineFacts SpecDots DotFacts RunFacts SpecRun RunProps.
Import ListNotations.
Open Scope Z_scope.

Lemma strictly_sorted_unique {A} (R : A -> A -> Prop) :
  (forall x, ~ R x x) -> (forall x y, R x y -> ~ R y x) ->
  forall l m, StronglySorted R l -> StronglySorted R m -> (forall x, In x l <-> In x m) -> l = m.
Proof.
  intros Ir As. induction l as [|x l IH]; intros m Sl Sm H.
  - destruct m as [|y m]; [reflexivity|]. destruct (proj2 (H y) (or_introl eq_refl)).
  - destruct m as [|y m]; [destruct (proj1 (H x) (or_introl eq_refl))|].
    inversion Sl as [|? ? Sl' Fl]; subst. inversion Sm as [|? ? Sm' Fm]; subst. rewrite Forall_forall in Fl, Fm.
    assert (E : x = y).
    { destruct (proj1 (H x) (or_introl eq_refl)) as [E|Hx]; [auto|].
      destruct (proj2 (H y) (or_introl eq_refl)) as [E|Hy]; [auto|].
      destruct (As _ _ (Fl _ Hy)). apply Fm, Hx. }
    subst y. f_equal. apply IH; [exact Sl' | exact Sm'|]. intros z. split; intros Hz.
    + destruct (proj1 (H z) (or_intror Hz)) as [<-|Hz']; [destruct (Ir x); apply Fl, Hz | exact Hz'].
    + destruct (proj2 (H z) (or_intror Hz)) as [<-|Hz']; [destruct (Ir x); apply Fm, Hz | exact Hz'].
Qed.

Lemma dot_ticks_twice server last dur h :
  (forall e, In e h -> app_time e <= dot_first_tick server (app_time e)) ->
  dot_ticks server last dur (h ++ h) = dot_ticks server last dur h.
Proof.
  intros Hf.
  apply (strictly_sorted_unique (fun x y : dot_entry * Z => snd x < snd y)); [intros; lia | intros; lia | | |].
  - apply dot_ticks_sorted. intros e He. apply in_app_or in He as [He|He]; apply Hf, He.
  - apply dot_ticks_sorted, Hf.
  - intros [e t]. rewrite !dot_ticks_in. split; intros ((i & Hi & x & Hx & (j & Hj & Ht) & Hd & Hs) & Tr); (split; [|exact Tr]).
    + rewrite Hi in Hx. injection Hx as <-. destruct (Nat.lt_ge_cases i (List.length h)) as [L|L].
      * rewrite nth_error_app1 in Hi by exact L. exfalso.
        assert (Hc : nth_error (h ++ h) (List.length h + i) = Some e) by (rewrite nth_error_app2 by lia; replace (List.length h + i - List.length h)%nat with i by lia; exact Hi).
        specialize (Hs _ _ Hc ltac:(right; split; [reflexivity | lia])).
        specialize (Hf e (nth_error_In _ _ Hi)). lia.
      * rewrite nth_error_app2 in Hi by exact L. exists (i - List.length h)%nat. split; [exact Hi|]. exists e. split; [exact Hi|].
        split; [exists j; auto|]. split; [exact Hd|]. intros k e' Hk Su. apply (Hs (List.length h + k)%nat).
        -- rewrite nth_error_app2 by lia. replace (List.length h + k - List.length h)%nat with k by lia. exact Hk.
        -- unfold superseded_by in *. lia.
    + rewrite Hi in Hx. injection Hx as <-. exists (List.length h + i)%nat.
      assert (Hc : nth_error (h ++ h) (List.length h + i) = Some e) by (rewrite nth_error_app2 by lia; replace (List.length h + i - List.length h)%nat with i by lia; exact Hi).
      split; [exact Hc|]. exists e. split; [exact Hc|]. split; [exists j; auto|]. split; [exact Hd|].
      intros k e' Hk Su. destruct (Nat.lt_ge_cases k (List.length h)) as [L|L].
      * rewrite nth_error_app1 in Hk by exact L. apply (Hs k e' Hk). unfold superseded_by in *. lia.
      * rewrite nth_error_app2 in Hk by exact L. apply (Hs _ e' Hk). unfold superseded_by in *. lia.
Qed.

(** ** The shape of the dot table *)

Definition shape (d : dots) : dict (list follow_up) := map (fun kv => (fst kv, map fst (snd kv))) d.

Lemma shape_dset t v v0 d :
  dget t d = Some v0 -> map fst v = map fst v0 -> shape (dset t v d) = shape d.
Proof.
  unfold shape. induction d as [|[k v1] d IH]; cbn; [discriminate|]. destruct (String.eqb t k) eqn:E.
  - intros H Hf. injection H as <-. cbn. rewrite Hf. apply String.eqb_eq in E. subst. reflexivity.
  - intros H Hf. cbn. rewrite (IH H Hf). reflexivity.
Qed.
Lemma shape_dget t d : dget t (shape d) = option_map (map fst) (dget t d).
Proof. unfold shape. induction d as [|[k v] d IH]; cbn; [reflexivity|]. destruct (String.eqb t k); [reflexivity | exact IH]. Qed.

Definition present (s : dict (list follow_up)) (x : dot_application) : Prop :=
  exists fs, dget (fst (fst x)) s = Some fs /\ existsb (follow_up_eqb (snd (fst x))) fs = true.
Lemma record_present d x : present (shape d) x -> shape (record_dot d x) = shape d.
Proof.
  destruct x as [[t fu] e]. intros (fs & G & Ex). cbn [fst snd] in *. unfold record_dot, add_dot_target.
  rewrite shape_dget in G. destruct (dget t d) as [v|] eqn:Gd; [|discriminate]. cbn in G. injection G as <-.
  apply (shape_dset t _ v); [exact Gd|]. rewrite add_dot_entry_fst.
  assert (Ex' : existsb (fun x => follow_up_eqb fu (fst x)) v = true).
  { apply existsb_exists in Ex as (f & Hf & Ef). apply in_map_iff in Hf as (y & <- & Hy). apply existsb_exists. exists y. auto. }
  rewrite Ex'. reflexivity.
Qed.
Lemma record_all_present l : forall d, (forall x, In x l -> present (shape d) x) -> shape (fold_left record_dot l d) = shape d.
Proof.
  induction l as [|x l IH]; intros d H; cbn; [reflexivity|].
  pose proof (record_present d x (H x (or_introl eq_refl))) as E. rewrite IH; [exact E|].
  intros y Hy. rewrite E. apply H. right; exact Hy.
Qed.

Lemma distinguishable_twice l : distinguishable l -> distinguishable (l ++ l).
Proof. intros H x y Hx Hy. apply in_app_or in Hx. apply in_app_or in Hy. apply H; tauto. Qed.

Lemma dots_for_present l d : distinguishable l -> dots_for l d -> forall x, In x l -> present (shape d) x.
Proof.
  intros D (_ & _ & I3) [[t fu] e] Hx. assert (Hm : In (t, fu) (map fst l)) by (apply in_map_iff; exists (t, fu, e); auto).
  destruct (I3 _ _ Hm) as (fl & h & G & Hf). exists (map fst fl). cbn [fst snd]. split; [rewrite shape_dget, G; reflexivity|].
  apply existsb_exists. exists fu. split; [apply (in_map fst) in Hf; exact Hf|].
  apply (D (t, fu, e) (t, fu, e) Hx Hx). reflexivity.
Qed.

Definition filled_from (l : list dot_application) (d : dots) : Prop :=
  forall kv x, In kv d -> In x (snd kv) -> snd x = history (fst kv) (fst x) l.
Lemma dots_for_filled l d : dots_for l d -> filled_from l d.
Proof.
  intros (I1 & I2 & _) [k v] [fu h] H Hx. destruct (I2 k v (in_dget _ _ _ I1 H)) as (_ & B). apply (B _ _ Hx).
Qed.

Lemma calls_twice server last l :
  distinguishable l ->
  (forall x, In x l -> app_time (snd x) <= dot_first_tick server (app_time (snd x))) ->
  all_dot_calls server last (fold_left record_dot (l ++ l) []) = all_dot_calls server last (fold_left record_dot l []).
Proof.
  intros D Hf. pose proof (record_dots_for l D) as F1. pose proof (record_dots_for _ (distinguishable_twice l D)) as F2.
  assert (Sh : shape (fold_left record_dot (l ++ l) []) = shape (fold_left record_dot l [])).
  { rewrite fold_left_app. apply record_all_present. apply dots_for_present; assumption. }
  apply dots_for_filled in F1. apply dots_for_filled in F2.
  set (d1 := fold_left record_dot l []) in *. set (d2 := fold_left record_dot (l ++ l) []) in *. clearbody d1 d2.
  unfold all_dot_calls. revert d2 F2 Sh. induction d1 as [|[k v] d1 IH]; intros [|[k2 v2] d2] F2 Sh; try discriminate Sh; [reflexivity|].
  injection Sh as Ek Ev Sh. subst k2. cbn [flat_map fst snd]. f_equal.
  2:{ apply IH; [intros kv x H; apply F1; right; exact H | intros kv x H; apply F2; right; exact H | exact Sh]. }
  assert (Fv1 : forall x, In x v -> snd x = history k (fst x) l) by (intros x; apply (F1 (k, v)); left; reflexivity).
  assert (Fv2 : forall x, In x v2 -> snd x = history k (fst x) (l ++ l)) by (intros x; apply (F2 (k, v2)); left; reflexivity).
  clear - Hf Ev Fv1 Fv2. revert v2 Ev Fv2. induction v as [|[fu h] v IH]; intros [|[fu2 h2] v2] Ev Fv2; try discriminate Ev; [reflexivity|].
  cbn in Ev. injection Ev as Ef Ev. subst fu2. cbn [flat_map]. f_equal.
  2:{ apply IH; [intros x H; apply Fv1; right; exact H | exact Ev | intros x H; apply Fv2; right; exact H]. }
  specialize (Fv1 _ (or_introl eq_refl)). specialize (Fv2 _ (or_introl eq_refl)). cbn [fst snd] in *. subst h h2.
  unfold dot_calls. cbn [fst snd]. destruct (fu_dot fu) as [dur|]; [|reflexivity]. rewrite history_app, dot_ticks_twice; [reflexivity|].
  intros e He. apply in_history in He. apply in_map_iff in He as (y & <- & Hy). apply Hf, Hy.
Qed.

Lemma run_again b b' :
  built b -> b_autos b = false -> get_skill_timing b = Ok b' ->
  exists slog tlog, rotation_played b slog tlog
    /\ (distinguishable (flat_map press_dots (slog ++ tlog)) ->
        small_times (b_snap_dots b) (flat_map press_dots (slog ++ tlog)) ->
        exists b'', get_skill_timing b' = Ok b''
          /\ b_queue b'' = b_queue b' /\ get_button_press_timing b'' = get_button_press_timing b').
Proof.
  intros B Au H. destruct (built_fresh b B) as (Bd & Bs).
  rewrite get_skill_timing_eq in H. cbv zeta in H. set (c := with_windows b (process_downtime_windows b)) in *.
  inv_bind H. destruct a as [[[q2 d2] pr2] sp2].
  unfold presses_pass in E. inv_bind E. inv_bind E. rename a into slog. rename a0 into tlog. rename E0 into Es. rename E1 into Et.
  assert (Pl : rotation_played b slog tlog).
  { apply sequence_log_spec in Es as (S1 & S2 & S3 & S4 & tk & S5 & S6). apply timeds_log_spec in Et as (order & T1 & T2 & T3 & T4 & T5 & tk' & T6 & T7).
    split; [exact S1|]. split; [exact S4|]. split; [exists order; split; [exact T1|]; split; [exact T2 | exact T3]|].
    split; [apply Forall_app; auto|]. split; [apply Forall_app; auto|].
    exists tk. split; [exact S5|]. split; [exact S6|]. rewrite S5 in T6. injection T6 as <-. exact T7. }
  exists slog, tlog. split; [exact Pl|]. intros Di Sm. unfold log_pass in E. inv_bind E. injection E as <- <- <- <-. rename a into q2'. rename E0 into Q2.
  change (b_dots c) with (b_dots b) in H. rewrite Bd in H. set (l := flat_map press_dots (slog ++ tlog)) in *.
  assert (Hf : forall x, In x l -> app_time (snd x) <= dot_first_tick (b_snap_dots b) (app_time (snd x))) by (intros x Hx; eapply small_first; eassumption).
  assert (Hd : forall x, In x l -> fu_dot (snd (fst x)) <> None) by apply log_dots_dot.
  assert (Ok1 : dots_ok (fold_left record_dot l [])) by (apply record_dots_ok; [intros kv x [] | exact Hd]).
  unfold timing_tail in H. change (b_autos c) with (b_autos b) in H. rewrite Au in H.
  rewrite process_all_dots_eq in H by exact Ok1. change (b_snap_dots c) with (b_snap_dots b) in H.
  set (last := if b_ignore_trailing c then get_last_event_time q2' else None) in *.
  inv_bind H. rename a into q3. rename E into Q3. cbn [bind] in H. inv_bind H. destruct a as [q5 pr5]. rename E into Sh.
  inv_bind H. rename a into q6. rename E into Q6. injection H as <-.
  set (b' := with_results c _ _ _ _). rewrite get_skill_timing_eq. cbv zeta.
  assert (Wp : process_downtime_windows b' = process_downtime_windows b).
  { unfold b', c. unfold process_downtime_windows. cbn [b_windows with_results with_windows]. destruct (b_windows b); reflexivity. }
  rewrite Wp. set (c' := with_windows b' (process_downtime_windows b)).
  assert (Es' : sequence_log c' = Ok slog) by exact Es. assert (Et' : timeds_log c' = Ok tlog) by exact Et.
  unfold presses_pass. rewrite Es'. cbn [bind]. rewrite Et'. cbn [bind]. unfold log_pass. rewrite Q2. cbn [bind].
  change (b_dots c') with (fold_left record_dot l []). rewrite <- fold_left_app. fold l.
  unfold timing_tail. change (b_autos c') with (b_autos b). rewrite Au.
  rewrite process_all_dots_eq by (apply record_dots_ok; [intros kv x [] | intros x Hx; apply in_app_or in Hx as [Hx|Hx]; apply Hd, Hx]).
  change (b_snap_dots c') with (b_snap_dots b). change (b_ignore_trailing c') with (b_ignore_trailing c). fold last.
  rewrite calls_twice by assumption. rewrite Q3. cbn [bind].
  change (b_fight_start c') with (b_fight_start c). change (b_stats c') with (b_stats b). cbn [app]. rewrite Sh. cbn [bind].
  change (b_windows c') with (b_windows c). rewrite Q6. cbn [bind]. eexists. split; [reflexivity|]. split; reflexivity.
Qed.
