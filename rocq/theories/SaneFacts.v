(** * A library without negative numbers makes hits without negative numbers *)

From Coq Require Import ZArith QArith List String Bool Permutation Lia.
From Verif Require Import Base BaseFacts Heap HeapFacts Float FloatFacts Strings Types Lookup StatusEffect JobResource Combo Stats Library Events Rotation DamageBuild
  SpecHit SpecGame SpecShuffle SpecGear EventsFacts AutoProps SafeFacts SafeDelay.
Import ListNotations.
Open Scope string_scope.
Open Scope Z_scope.

Lemma sane_here s : sane_skill s -> (forall d, In d (damages_of s) -> sane_damage d) /\ (forall e, In e (effects_of s) -> sane_effect e).
Proof. intros H. apply H, part_self. Qed.
Lemma sane_next s fu : sane_skill s -> In fu (follow_ups_of s) -> sane_skill (fu_skill fu).
Proof. intros H I p P. apply H. exact (part_follow_up _ _ _ I P). Qed.

(** ** Rotations *)

Definition sane_queue (qu : queue) : Prop := Forall (fun e => sane_skill (ev_skill e) /\ (forall x, ev_snap e <> (SEff x, snd (ev_snap e))) /\ (forall x, ev_snap e <> (fst (ev_snap e), SEff x))) (q_heap qu).
Definition sane_dots (d : dots) : Prop := forall tg l fu es, In (tg, l) d -> In (fu, es) l -> sane_skill (fu_skill fu).

Lemma add_stored qu p t1 t2 s m sn id a b c tg qu' : q_add qu p t1 t2 s m sn id a b c tg = Ok qu' ->
  exists e, Permutation (q_heap qu') (e :: q_heap qu) /\ ev_skill e = s /\ (ev_snap e = sn \/ ev_snap e = (SFlag true, SFlag true)).
Proof.
  unfold q_add. destruct (match id with None => _ | Some _ => _ end) as [i n]. intros H. inv_bind H. injection H as <-.
  apply heappush_perm in E. eexists. split; [symmetry; exact E|]. cbn. split; [reflexivity|]. destruct (opt_is t2 t1); auto.
Qed.
Lemma sane_add qu p t1 t2 s m f g id a b c tg qu' : sane_queue qu -> sane_skill s ->
  q_add qu p t1 t2 s m (SFlag f, SFlag g) id a b c tg = Ok qu' -> sane_queue qu'.
Proof.
  intros Q S H. apply add_stored in H as (e & P & Es & Sn). unfold sane_queue. apply (Permutation_Forall (Permutation_sym P)). constructor; [|exact Q].
  rewrite Es. split; [exact S|]. destruct Sn as [->| ->]; split; discriminate.
Qed.
Lemma sane_add_like qu p t1 t2 e m id a b c tg qu' : sane_queue qu -> sane_skill (ev_skill e) -> (forall x, ev_snap e <> (SEff x, snd (ev_snap e))) -> (forall x, ev_snap e <> (fst (ev_snap e), SEff x)) ->
  q_add qu p t1 t2 (ev_skill e) m (ev_snap e) id a b c tg = Ok qu' -> sane_queue qu'.
Proof.
  intros Q S N1 N2 H. destruct (ev_snap e) as [[f|x] [g|y]] eqn:X.
  - exact (sane_add _ _ _ _ _ _ _ _ _ _ _ _ _ _ Q S H).
  - exfalso. exact (N2 y eq_refl).
  - exfalso. exact (N1 x eq_refl).
  - exfalso. exact (N1 x eq_refl).
Qed.

Lemma dot_entry_in fu e l fu' es : In (fu', es) (add_dot_entry fu e l) -> fu' = fu \/ exists es', In (fu', es') l.
Proof.
  induction l as [|[f0 es0] l IH]; cbn; [intros [[= -> _]|[]]; auto|].
  destruct (follow_up_eqb fu f0); cbn; intros [[= -> <-]|I]; eauto. destruct (IH I) as [->|(es' & J)]; eauto.
Qed.
Lemma sane_dot_target fu e d tg : sane_dots d -> sane_skill (fu_skill fu) -> sane_dots (add_dot_target fu e d tg).
Proof.
  intros D S tg' l fu' es I J. unfold add_dot_target in I. apply dset_in in I as [[= -> ->]|I]; [|exact (D _ _ _ _ I J)].
  apply dot_entry_in in J as [->|(es' & J)]; [exact S|]. destruct (dget tg d) as [l|] eqn:G; [|destruct J]. apply dget_in in G. exact (D _ _ _ _ G J).
Qed.

Definition sane_sim (x : sim) : Prop := sane_queue (si_queue x) /\ sane_dots (si_dots x).
Lemma sane_follow ps pa tg x i fu x' : sane_sim x -> sane_skill (fu_skill fu) -> process_follow_up ps pa tg x (i, fu) = Ok x' -> sane_sim x'.
Proof.
  intros (Q & D) S H. unfold process_follow_up in H. destruct (fu_dot fu).
  - injection H as <-. split; [exact Q|]. cbn. apply fold_left_inv; [exact D|]. intros d t _ Dd. apply sane_dot_target; assumption.
  - unfold process_non_dot_follow_up in H. cbv zeta in H.
    destruct (fu_snap_buffs fu || fu_snap_debuffs fu); inv_bind H; inv_bind H; inv_bind H; inv_bind H; injection H as <-; split; try exact D;
      exact (sane_add _ _ _ _ _ _ _ _ _ _ _ _ _ _ Q S E0).
Qed.
Lemma sane_process st x t s m bu tg x' : sane_sim x -> sane_skill s -> process_skill st x t s m bu tg = Ok x' -> sane_sim x'.
Proof.
  intros (Q & D) S H. unfold process_skill in H. inv_bind H. inv_bind H. inv_bind H. destruct a1 as [sn ap]. inv_bind H. inv_bind H. inv_bind H. inv_bind H.
  apply (foldM_inv _ sane_sim) in H; [exact H| |].
  - split; [exact (sane_add _ _ _ _ _ _ _ _ _ _ _ _ _ _ Q S E2) | exact D].
  - intros y [i fu] y' I Y F. eapply sane_follow; [exact Y| |exact F]. apply (sane_next s); [exact S|].
    apply (tspec_declared _ _ _ _ E5). unfold enumerate in I. apply (in_map snd) in I. rewrite enum_from_snd in I. exact I.
Qed.
Lemma sane_seq st ss x ss' : sane_sim (pa_sim (ss_pass ss)) -> sane_skill (sq_skill x) -> process_seq st ss x = Ok ss' -> sane_sim (pa_sim (ss_pass ss')).
Proof.
  intros Q S H. unfold process_seq in H. cbv zeta in H. inv_bind H. destruct a as [[[tk m1] bu] de]. inv_bind H. inv_bind H. inv_bind H. inv_bind H. inv_bind H.
  apply sane_process in E3; [|exact Q|exact S].
  destruct (sk_is_GCD (sq_skill x)); [inv_bind H; inv_bind H|]; injection H as <-; exact E3.
Qed.
Lemma sane_timed st p x p' : sane_sim (pa_sim p) -> sane_skill (tm_skill x) -> process_timed st p x = Ok p' -> sane_sim (pa_sim p').
Proof.
  intros Q S H. unfold process_timed in H. cbv zeta in H. inv_bind H. destruct a as [[[tk m1] bu] de]. inv_bind H. inv_bind H. inv_bind H. injection H as <-.
  apply sane_process in E2; [exact E2|exact Q|exact S].
Qed.

Definition sane_calls (b : builder) : Prop :=
  Forall (fun x => sane_skill (sq_skill x)) (b_sequence b) /\ Forall (fun x => sane_skill (tm_skill x)) (b_timed b) /\ sane_dots (b_dots b)
  /\ (b_autos b = true -> forall s, auto_skill_of (b_library b) (st_job (b_stats b)) = Ok s -> sane_skill s).

Lemma sane_all_dots sv d last : sane_dots d -> forall qu qu', sane_queue qu -> process_all_dots sv d last qu = Ok qu' -> sane_queue qu'.
Proof.
  intros D qu qu' Q H. unfold process_all_dots in H. apply (foldM_inv _ sane_queue) in H; [exact H|exact Q|].
  intros q1 [tg l] q2 I Q1 H1. cbn [fst snd] in H1. apply (foldM_inv _ sane_queue) in H1; [exact H1|exact Q1|].
  intros q3 [fu es] q4 J Q3 H2. unfold add_dot in H2. inv_bind H2. inv_bind H2. destruct a0 as [q5 n5]. injection H2 as <-.
  apply (foldM_inv _ (fun x => sane_queue (fst x))) in E0; [exact E0|exact Q3|].
  intros [q6 n6] [[[s0 e0] sn0] pm0] [q7 n7] _ Q6 H3. unfold add_dot_window in H3. apply (foldM_inv _ (fun x => sane_queue (fst x))) in H3; [exact H3|exact Q6|].
  intros [q8 n8] t [q9 n9] _ Q8 H4. unfold add_tick in H4. destruct (is_trailing last t); [injection H4 as <- <-; exact Q8|].
  inv_bind H4. injection H4 as <- <-. cbn [fst] in *. refine (sane_add _ _ _ _ _ _ _ _ _ _ _ _ _ _ Q8 _ E1). exact (D _ _ _ _ I J).
Qed.
Lemma sane_loop b stamps au delay wd lt : sane_skill au -> forall fuel qu sn ind qu', sane_queue qu ->
  auto_loop fuel b stamps au delay wd lt qu sn ind = Ok qu' -> sane_queue qu'.
Proof.
  intros S. induction fuel as [|fuel IH]; intros qu sn ind qu' Q H; cbn [auto_loop] in H; destruct (negb (sn + delay <? lt)); try (injection H as <-; exact Q); [discriminate H|].
  cbv zeta in H. inv_bind H. destruct a as [z tg]. inv_bind H. unfold q_add_new in E0. apply sane_add in E0; [|exact Q|exact S]. inv_bind H. inv_bind H. destruct a1 as [bu de]. inv_bind H. inv_bind H.
  destruct a2 as [t|]; [exact (IH _ _ _ _ E0 H) | injection H as <-; exact E0].
Qed.
Lemma sane_drain qu l : sane_queue qu -> q_drain qu = Ok l ->
  Forall (fun e => sane_skill (ev_skill e) /\ (forall x, ev_snap e <> (SEff x, snd (ev_snap e))) /\ (forall x, ev_snap e <> (fst (ev_snap e), SEff x))) l.
Proof. intros Q H. apply drain_perm in H. exact (Permutation_Forall H Q). Qed.
Lemma sane_empty : sane_queue q_init. Proof. constructor. Qed.
Lemma sane_shift qu pr r : sane_queue qu -> shift_timelines qu pr = Ok r -> sane_queue (fst r).
Proof.
  intros Q H. unfold shift_timelines in H. inv_bind H. destruct a as [d|]; [|injection H as <-; exact Q]. inv_bind H. inv_bind H. injection H as <-.
  pose proof (sane_drain _ _ Q E0) as L. rewrite Forall_forall in L. cbn [fst]. apply (foldM_inv _ sane_queue) in E1; [exact E1|exact sane_empty|].
  intros q1 e q2 I Q1 H1. destruct (L e I) as (S & N1 & N2). exact (sane_add_like _ _ _ _ _ _ _ _ _ _ _ _ Q1 S N1 N2 H1).
Qed.
Lemma sane_downtime w qu qu' : sane_queue qu -> remove_damage_during_downtime w qu = Ok qu' -> sane_queue qu'.
Proof.
  intros Q H. unfold remove_damage_during_downtime in H. inv_bind H. pose proof (sane_drain _ _ Q E) as L. rewrite Forall_forall in L.
  apply (foldM_inv _ sane_queue) in H; [exact H|exact sane_empty|]. intros q1 e q2 I Q1 H1. destruct (L e I) as (S & N1 & N2).
  unfold downtime_event in H1. inv_bind H1. destruct a0; [injection H1 as <-; exact Q1|]. exact (sane_add_like _ _ _ _ _ _ _ _ _ _ _ _ Q1 S N1 N2 H1).
Qed.
Lemma sane_run b r : sane_calls b -> get_skill_timing b = Ok r -> sane_queue (b_queue r).
Proof.
  intros (Sq & Tm & Dt & Au) H. unfold get_skill_timing in H. cbv zeta in H. inv_bind H.
  assert (P1 : sane_sim (pa_sim a)).
  { unfold process_q_sequence in E. inv_bind E. inv_bind E. injection E as <-. rewrite Forall_forall in Sq.
    apply (foldM_inv _ (fun x => sane_sim (pa_sim (ss_pass x)))) in E1; [exact E1|split; [exact sane_empty|exact Dt]|].
    intros x y x' I X. apply sane_seq; [exact X|exact (Sq _ I)]. }
  inv_bind H.
  assert (P2 : sane_sim (pa_sim a0)).
  { unfold process_q_timed in E0. inv_bind E0. inv_bind E0. rewrite Forall_forall in Tm. unfold timed_order in E2. apply drain_perm in E2.
    apply (foldM_inv _ (fun x => sane_sim (pa_sim x))) in E0; [exact E0|exact P1|]. intros x y x' I X. apply sane_timed; [exact X|]. apply Tm.
    apply (Permutation_in _ (Permutation_sym E2)) in I. exact (Permutation_in _ (sort_by_perm tm_time (b_timed b)) I). }
  destruct P2 as (Q2 & D2). inv_bind H. apply sane_all_dots in E1; [|exact D2|exact Q2]. inv_bind H.
  assert (Q4 : sane_queue a2).
  { change (b_autos (with_windows b (process_downtime_windows b))) with (b_autos b) in E2. destruct (b_autos b); [|injection E2 as <-; exact E1].
    unfold add_autos in E2. inv_bind E2. inv_bind E2. inv_bind E2. inv_bind E2. inv_bind E2. inv_bind E2.
    refine (sane_loop _ _ _ _ _ _ _ _ _ _ _ _ E1 E2). exact (Au eq_refl _ E4). }
  inv_bind H. destruct a3 as [q5 pr]. cbn [b_fight_start with_windows] in E3.
  assert (Q5 : sane_queue q5).
  { destruct (b_fight_start b); [injection E3 as <- <-; exact Q4|]. apply sane_shift in E3; [exact E3|exact Q4]. }
  inv_bind H. injection H as <-. cbn [b_queue with_results]. exact (sane_downtime _ _ _ Q5 E4).
Qed.

(** ** Effects *)

Definition sane_se : se_tracker -> Prop := se_holds (fun _ => sane_effect) (fun _ => sane_effect).
Definition fine (e : status_effects) : Prop := effects_nonneg e /\ (0 <= ef_damage_mult e)%Q.
Definition fine_snap (x : snap) : Prop := match x with SFlag _ => True | SEff e => fine e end.

Lemma fine_none : fine no_effects.
Proof. repeat split; vm_compute; discriminate. Qed.
Lemma fine_merge e sp e' : fine e -> sane_effect sp -> merge_effect e sp = Ok e' -> fine e'.
Proof.
  intros ((A & B & C) & D) ((a & b & c & d & _) & _) H. unfold merge_effect in H. inv_bind H. inv_bind H. injection H as <-.
  repeat split; cbn; [apply fadd_nonneg | apply fadd_nonneg | apply fmul_nonneg | apply fmul_nonneg]; try assumption; apply Qlt_le_weak; assumption.
Qed.
Lemma fine_compile prio t d deny n d' e c : holds (fun _ => sane_effect) d -> compile_effects prio t d deny n = Ok (d', (e, c)) ->
  holds (fun _ => sane_effect) d' /\ fine e.
Proof.
  intros H0 H. unfold compile_effects in H. inv_bind H. destruct a as [[d1 e1] c1]. injection H as <- <- _.
  apply (foldM_inv _ (fun x => holds (fun _ => sane_effect) (fst (fst x)) /\ fine (snd (fst x)))) in E.
  - destruct E as (A & B). split; [exact A|]. destruct B as ((? & ? & ?) & ?). repeat split; assumption.
  - split; [exact H0|exact fine_none].
  - intros [[d2 e2] c2] x [[d3 e3] c3] _ (A & B) U. unfold use_effect in U. inv_bind U. inv_bind U. injection U as <- <- _. cbn [fst snd] in *.
    destruct (dget x d2) as [a'|] eqn:G; [|discriminate E0]. injection E0 as ->. pose proof (holds_get _ _ _ _ A G) as S.
    split; [apply holds_dset; [exact A|exact S]|]. exact (fine_merge _ _ _ B S E1).
Qed.
Lemma fine_buffs st t s st' e c : sane_se st -> compile_buffs st t s = Ok (st', (e, c)) -> sane_se st' /\ fine e.
Proof.
  intros S H. unfold compile_buffs in H. inv_bind H. destruct a as [d [e' c']]. injection H as <- <- <-. apply fine_compile in E as (A & B); [|apply S].
  split; [apply se_holds_set_buffs; assumption|exact B].
Qed.
Lemma fine_debuffs st t s tg st' e c : sane_se st -> compile_debuffs st t s tg = Ok (st', (e, c)) -> sane_se st' /\ fine e.
Proof.
  intros S H. unfold compile_debuffs in H. inv_bind H. destruct a as [d [e' c']]. injection H as <- <- <-.
  apply fine_compile in E as (A & B); [|exact (se_holds_debuffs _ _ _ _ S)]. split; [apply se_holds_set_debuffs; assumption|exact B].
Qed.
Lemma sane_apply st t s m tg st' : sane_se st -> sane_skill s -> add_to_status_effects st t s m tg = Ok st' -> sane_se st'.
Proof.
  intros S K H. destruct (sane_here _ K) as (_ & E). eapply se_holds_add; [exact S|exact H| |]; intros e I; apply E, in_or_app; auto.
Qed.

(** ** Damage *)

Definition fine_event (e : event) : Prop := sane_skill (ev_skill e) /\ fine_snap (fst (ev_snap e)) /\ fine_snap (snd (ev_snap e)).
Definition fine_queue (qu : queue) : Prop := Forall fine_event (q_heap qu).

Lemma hit_of t s m b d id tg : sane_skill s -> fine b -> fine d -> sane_hit (mkInst t s m (b, d) id tg).
Proof.
  intros S (B & Bm) (D & Dm). destruct (sane_here _ S) as (K & _). unfold sane_hit, mults_nonneg. cbn [di_effects di_skill di_modifier fst snd].
  assert (X : forall sp, get_damage_spec s m = Ok (Some sp) -> sane_damage sp) by (intros sp H; apply K; exact (cspec_declared _ _ _ H)).
  repeat (split; [assumption|]). split; [|split; [assumption|split; [assumption|]]].
  - split; [assumption|]. split; [assumption|]. intros sp H. destruct (X sp H) as (_ & O & _). exact O.
  - intros sp H. destruct (X sp H) as ((P & Sm & Ps) & _ & O). split; [exact P|]. split; [exact O|]. split; [apply Qlt_le_weak, Ps|exact Sm].
Qed.
Lemma resource_se tk t s m k : tk_se (fst (resource_conditional tk t s m k)) = tk_se tk.
Proof. unfold resource_conditional. destruct k; [reflexivity|]. destruct (compile_job_resources _ _ _). reflexivity. Qed.
Lemma added_se tk t s m k tk' : resources_added tk t s m k = Ok tk' -> tk_se tk' = tk_se tk.
Proof. unfold resources_added. destruct k; [intros [= <-]; reflexivity|]. intros H. inv_bind H. injection H as <-. reflexivity. Qed.
Lemma combo_se tk t s m k r : combo_and_positional tk t s m k = Ok r -> tk_se (fst r) = tk_se tk.
Proof. unfold combo_and_positional. destruct k; [intros [= <-]; reflexivity|]. intros H. inv_bind H. destruct a as [ct c]. inv_bind H. injection H as <-. reflexivity. Qed.

Lemma fine_application tk out e tk' out' : sane_se (tk_se tk) -> fine_event e -> Forall sane_hit out -> application_event tk out e = Ok (tk', out') ->
  sane_se (tk_se tk') /\ Forall sane_hit out'.
Proof.
  intros S (K & F1 & F2) O H. unfold application_event in H. cbv zeta in H.
  destruct (resource_conditional tk _ _ _ _) as [tk1 m1] eqn:R1. pose proof (resource_se tk (ev_primary e) (ev_skill e) (ev_modifier e) (ev_jr_cond e)) as X. rewrite R1 in X. cbn [fst] in X.
  inv_bind H. apply added_se in E. inv_bind H. destruct a0 as [tk3 m2]. apply combo_se in E0. cbn [fst] in E0.
  assert (S3 : sane_se (tk_se tk3)) by (rewrite E0, E, X; exact S). clear S X E E0 R1.
  inv_bind H. destruct a0 as [[se1 bu] m3].
  assert (B : sane_se se1 /\ fine bu).
  { destruct (fst (ev_snap e)) as [f|x]; [|injection E as <- <- _; split; assumption]. inv_bind E. destruct a0 as [se' [b c]]. injection E as <- <- _. exact (fine_buffs _ _ _ _ _ _ S3 E0). }
  destruct B as (S1 & B). inv_bind H. destruct a0 as [[se2 o2] m4].
  apply (foldM_inv _ (fun x => sane_se (fst (fst x)) /\ Forall sane_hit (snd (fst x)))) in E0.
  - destruct E0 as (S2 & O2). inv_bind H. injection H as <- <-. split; [|exact O2]. exact (sane_apply _ _ _ _ _ _ S2 K E0).
  - split; assumption.
  - intros [[se o] m0] [i tg] [[se' o'] m'] _ (Si & Oi) A. cbn [fst snd] in *. unfold apply_target in A. cbv zeta in A. inv_bind A. destruct a0 as [[se5 de] m5].
    assert (D : sane_se se5 /\ fine de).
    { destruct (snd (ev_snap e)) as [f|x]; [|injection E1 as <- <- _; split; assumption]. inv_bind E1. destruct a0 as [se6 [d c]]. injection E1 as <- <- _. exact (fine_debuffs _ _ _ _ _ _ _ Si E2). }
    destruct D as (S5 & D). inv_bind A. destruct a0 as [sp|]; [|injection A as <- <- _; split; assumption]. inv_bind A. injection A as <- <- _. split; [exact S5|].
    apply heappush_perm in E3. apply (Permutation_Forall E3). constructor; [apply hit_of; assumption|exact Oi].
Qed.
Lemma fine_snapshot tk qu e app tk' qu' : sane_se (tk_se tk) -> fine_event e -> fine_queue qu -> snapshot_event tk qu e app = Ok (tk', qu') ->
  sane_se (tk_se tk') /\ fine_queue qu'.
Proof.
  intros S (K & F1 & F2) Q H. unfold snapshot_event in H. cbv zeta in H. inv_bind H. destruct a as [[se1 sn0] m1].
  assert (B : sane_se se1 /\ fine_snap sn0).
  { destruct (fst (ev_snap e)) as [[]|x]; [|injection E as <- <- _; split; [exact S|exact I]|injection E as <- <- _; split; assumption].
    inv_bind E. destruct a as [se' [b c]]. injection E as <- <- _. exact (fine_buffs _ _ _ _ _ _ S E0). }
  destruct B as (S1 & B). destruct (resource_conditional _ _ _ _ _) as [tk2 m2] eqn:R1.
  match type of R1 with resource_conditional ?x ?t ?s ?m ?k = _ => pose proof (resource_se x t s m k) as X end. rewrite R1 in X. cbn [fst tk_se] in X.
  inv_bind H. destruct a as [tk3 m3]. apply combo_se in E0. cbn [fst] in E0. inv_bind H. apply added_se in E1. inv_bind H. destruct a0 as [se2 q2]. injection H as <- <-.
  assert (S4 : sane_se (tk_se a)) by (rewrite E1, E0, X; exact S1).
  apply (foldM_inv _ (fun x => sane_se (fst x) /\ fine_queue (snd x))) in E2; [exact E2|split; assumption|].
  intros [se q1] [i tg] [se' q3] _ (Si & Qi) A. cbn [fst snd] in *. unfold snapshot_target in A. cbv zeta in A. inv_bind A. destruct a0 as [[se5 sn1] m5].
  assert (D : sane_se se5 /\ fine_snap sn1).
  { cbn [snd] in E3. destruct (snd (ev_snap e)) as [[]|x]; [|injection E3 as <- <- _; split; [exact Si|exact I]|injection E3 as <- <- _; split; assumption].
    inv_bind E3. destruct a0 as [se6 [d c]]. injection E3 as <- <- _. exact (fine_debuffs _ _ _ _ _ _ _ Si E4). }
  destruct D as (S5 & D). inv_bind A. injection A as <- <-. split; [exact S5|]. apply add_stored in E4 as (ev & P & Es & Sn). unfold fine_queue.
  apply (Permutation_Forall (Permutation_sym P)). constructor; [|exact Qi]. split; [rewrite Es; exact K|]. destruct Sn as [->| ->]; split; try exact I; assumption.
Qed.
Lemma fine_loop fuel : forall tk qu out r, sane_se (tk_se tk) -> fine_queue qu -> Forall sane_hit out -> damage_loop fuel tk qu out = Ok r -> Forall sane_hit (snd r).
Proof.
  induction fuel as [|fuel IH]; intros tk qu out r S Q O H; cbn [damage_loop] in H; destruct (q_is_empty qu); try (injection H as <-; exact O); [discriminate H|].
  inv_bind H. destruct a as [e q1]. unfold q_get_next in E. inv_bind E. destruct a as [e' h]. injection E as <- <-. apply heappop_perm in E0.
  apply (Permutation_Forall E0) in Q. inversion Q as [|? ? Fe Fq]; subst. inv_bind H. destruct a as [[tk1 q2] o2].
  unfold damage_step in E. cbv zeta in E. pose proof (se_holds_expire _ _ _ (ev_primary e') S) as S0.
  destruct (ev_secondary e') as [app|]; inv_bind E.
  - destruct a as [tk2 q3]. injection E as <- <- <-. apply fine_snapshot in E1 as (S1 & Q1); [|exact S0|exact Fe|exact Fq]. exact (IH _ _ _ _ S1 Q1 O H).
  - destruct a as [tk2 o3]. injection E as <- <- <-. apply fine_application in E1 as (S1 & O1); [|exact S0|exact Fe|exact O]. refine (IH _ _ _ _ S1 _ O1 H). exact Fq.
Qed.
Lemma sane_fine qu : sane_queue qu -> fine_queue qu.
Proof.
  intros Q. eapply Forall_impl; [|exact Q]. cbv beta. intros e (S & N1 & N2). split; [exact S|]. destruct (ev_snap e) as [[f|x] [g|y]]; cbn in *.
  - split; exact I.
  - exfalso. exact (N2 y eq_refl).
  - exfalso. exact (N1 x eq_refl).
  - exfalso. exact (N1 x eq_refl).
Qed.

(** ** Together *)

Lemma sane_sound b : sane_calls b -> sane_rotation b.
Proof.
  intros C tk r tk' qu hits T R G. apply sane_run in R; [|exact C]. unfold get_damage_instances in G. inv_bind G. destruct a as [[tk1 q1] o]. injection G as <- <- <-.
  apply fine_loop in E; [| |exact (sane_fine _ R)|constructor].
  - cbn [snd] in E. exact (Permutation_Forall (Permutation_sym (sort_by_perm di_time o)) E).
  - unfold db_init, new_trackers in T. inv_bind T. inv_bind T. inv_bind T. injection T as <-. split; [apply holds_nil|]. intros tg d [].
Qed.
