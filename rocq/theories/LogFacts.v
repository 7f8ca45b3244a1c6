(** * What the logs of presses satisfy *)

From Coq Require Import ZArith QArith List String Bool Lia Permutation Sorted.
From Verif Require Import Base Float Heap Strings Types Lookup StatusEffect JobResource Combo
  Channeling Stats Library Events Rotation BaseFacts HeapFacts SpecQueue EventsFacts SpecPlay PlayFacts.
Import ListNotations.
Open Scope Z_scope.

Definition timed_le (a b : timed) : Prop := tm_time a <= tm_time b.

Lemma sorted_is_heap {A} (le : A -> A -> Prop) l : StronglySorted le l -> is_heap le l.
Proof.
  intros S i Hi x y Hx Hy. pose proof (par_lt i Hi) as L.
  apply nth_error_split in Hy as (l1 & l2 & -> & Len).
  apply StronglySorted_app in S as (_ & _ & S). apply S; [|left; reflexivity].
  rewrite nth_error_app1 in Hx by lia. eapply nth_error_In, Hx.
Qed.

Lemma timed_lt_true a b : timed_lt a b = Ok true -> timed_le a b.
Proof.
  unfold timed_lt, timed_le. destruct (Z.eqb_spec (tm_time a) (tm_time b)); cbn; [lia|].
  intros H; injection H as H. lia.
Qed.
Lemma timed_lt_false a b : timed_lt a b = Ok false -> timed_le b a.
Proof.
  unfold timed_lt, timed_le. destruct (Z.eqb_spec (tm_time a) (tm_time b)); cbn; [lia|].
  intros H; injection H as H. lia.
Qed.

Lemma timed_order_spec l order :
  timed_order l = Ok order -> Permutation l order /\ StronglySorted timed_le order.
Proof.
  unfold timed_order. intros H.
  eapply (drain_spec timed_lt timed_le) in H as [P S].
  - split; [|exact S]. rewrite <- P. symmetry. apply sort_by_perm.
  - intros a; unfold timed_le; lia.
  - intros a b c; unfold timed_le; lia.
  - exact timed_lt_true.
  - exact timed_lt_false.
  - apply sorted_is_heap. exact (sort_by_sorted tm_time l).
Qed.
Lemma timed_order_total l :
  (forall a b, In a l -> In b l -> tm_time a = tm_time b -> sk_name (tm_skill a) = sk_name (tm_skill b) ->
     skill_eqb (tm_skill a) (tm_skill b) = true) ->
  exists order, timed_order l = Ok order.
Proof.
  intros H. unfold timed_order.
  destruct (drain_total timed_lt timed_le) with (fuel := List.length l) (h := sort_by tm_time l) as (o & E); eauto.
  - intros a; unfold timed_le; lia.
  - intros a b c; unfold timed_le; lia.
  - exact timed_lt_true.
  - exact timed_lt_false.
  - apply sorted_is_heap. exact (sort_by_sorted tm_time l).
  - intros a b Ha Hb.
    apply (Permutation_in _ (sort_by_perm tm_time l)) in Ha.
    apply (Permutation_in _ (sort_by_perm tm_time l)) in Hb.
    specialize (H a b Ha Hb). unfold timed_lt.
    destruct (Z.eqb_spec (tm_time a) (tm_time b)) as [T|T]; cbn; [|eauto].
    destruct (String.eqb_spec (sk_name (tm_skill a)) (sk_name (tm_skill b))) as [N|N]; cbn; [|eauto].
    rewrite (H T N). cbn. destruct (modifier_eqb (tm_modifier a) (tm_modifier b)); cbn; [|eauto].
    destruct (String.eqb (tm_job a) (tm_job b)); cbn; eauto.
  - rewrite (Permutation_length (sort_by_perm tm_time l)). lia.
Qed.

(** ** Timed presses *)

Lemma timed_effect_spec st tk x p tk' :
  timed_effect st tk x = Ok (p, tk') ->
  carries_timed x p /\ well_played st p /\ 0 <= pl_cast p /\ forall l, tracked tk' l -> tracked tk (p :: l).
Proof.
  unfold timed_effect. intros H. inv_bind H. destruct a as [[[tk1 m1] bu] de]. inv_bind H. inv_bind H.
  destruct (skill_effect_grants _ _ _ _ _ H) as (tk2 & Gr & Fg).
  apply skill_effect_spec in H.
  - cbn [pl_time pl_skill pl_asked pl_job pl_targets pl_modifier pl_buffs pl_debuffs] in H. unfold carries_timed.
    destruct H as (W & C & H1 & H2 & H3 & H4 & H5 & H6 & H7 & H8). repeat (split; [tauto|]).
    intros l Hl. eapply tracked_cons; [|exact Gr | exact Fg | exact Hl].
    eapply compile_press_in_force; [rewrite H1, H2, H3, H7, H8; exact E | rewrite H2, H6; exact E0].
  - cbn. destruct (tm_targets x); [discriminate E1 | discriminate].
Qed.
Lemma timed_log_spec st l : forall tk log tk',
  timed_log st tk l = Ok (log, tk') ->
  Forall2 carries_timed l log /\ Forall (well_played st) log /\ Forall (fun p => 0 <= pl_cast p) log /\ tracked tk log.
Proof.
  induction l as [|x l IH]; intros tk log tk'; cbn [timed_log]; intros H.
  - injection H as <- <-. repeat constructor.
  - inv_bind H. destruct a as [p tk1]. inv_bind H. destruct a as [log' tk2]. injection H as <- <-.
    apply timed_effect_spec in E as (C & W & P & T). apply IH in E0 as (C' & W' & P' & T').
    repeat (split; [constructor; assumption|]). apply T, T'.
Qed.
Lemma timeds_log_spec b log :
  timeds_log b = Ok log ->
  exists order, Permutation (b_timed b) order /\ StronglySorted timed_le order
    /\ Forall2 carries_timed order log /\ Forall (well_played (b_stats b)) log /\ Forall (fun p => 0 <= pl_cast p) log
    /\ exists tk, new_trackers (b_library b) (st_job (b_stats b)) (b_priority b) = Ok tk /\ tracked tk log.
Proof.
  unfold timeds_log. intros H. inv_bind H. inv_bind H. inv_bind H. destruct a1 as [log' tk']. injection H as <-.
  apply timed_order_spec in E0 as (P & S). apply timed_log_spec in E1 as (C & W & Ca & T). exists a0.
  repeat (split; [tauto|]). exists a. auto.
Qed.

(** ** Sequenced presses *)

Lemma seq_effect_spec st tk t g x p tk' t' g' :
  seq_effect st tk t g x = Ok (p, tk', t', g') ->
  carries_seq x p /\ well_played st p /\ 0 <= pl_cast p
  /\ (forall l, scheduled st t' g' l -> scheduled st t g (p :: l))
  /\ (forall l, tracked tk' l -> tracked tk (p :: l)).
Proof.
  unfold seq_effect. intros H. inv_bind H. destruct a as [[[tk1 m1] bu] de].
  inv_bind H. inv_bind H. inv_bind H. inv_bind H. destruct a2 as [p' tk''].
  apply skill_effect_spec in E3 as S; [|cbn; destruct (sq_targets x); [discriminate E2 | discriminate]].
  cbn [pl_time pl_skill pl_asked pl_job pl_targets pl_modifier pl_buffs pl_debuffs] in S.
  destruct S as (W & C & S1 & S2 & S3 & S4 & S5 & S6 & S7 & S8).
  destruct (skill_effect_grants _ _ _ _ _ E3) as (tk2 & Gr & Fg).
  assert (Tr : forall l, tracked tk'' l -> tracked tk (p' :: l)).
  { intros l Hl. eapply tracked_cons; [|exact Gr | exact Fg | exact Hl].
    eapply compile_press_in_force; [rewrite S1, S2, S3, S7, S8; exact E | rewrite S2, S6; exact E0]. }
  assert (T : pl_timing p' = a0). { destruct W as (W & _). rewrite S2, S6 in W. congruence. }
  inv_bind H. unfold of_option in E4. destruct a0 as [spec|]; [|discriminate]. injection E4 as <-.
  assert (CS : carries_seq x p') by (unfold carries_seq; auto).
  destruct (sk_is_GCD (sq_skill x)) eqn:G.
  - inv_bind H. inv_bind H. injection H as <- <- <- <-. split; [exact CS|]. split; [exact W|]. split; [exact C|].
    split; [|exact Tr]. intros l Hl.
    assert (Ca : pl_cast p' = a2).
    { revert E3. unfold skill_effect. cbn [pl_time pl_skill pl_asked pl_job pl_targets pl_modifier pl_buffs pl_debuffs].
      rewrite E1. cbn [bind]. rewrite E5. cbn [bind]. intros E3. inv_bind E3. destruct a3 as [u v].
      inv_bind E3. inv_bind E3. inv_bind E3. inv_bind E3. injection E3 as <- _. reflexivity. }
    eapply sched_gcd with (spec := spec) (r := a0).
    + rewrite S2; exact G.
    + exact T.
    + rewrite S7, S8. apply recast_time_spec. exact E4.
    + intros g0 ->. rewrite S1. reflexivity.
    + intros ->. rewrite S1. reflexivity.
    + replace (pl_time p' + busy p') with (press_time true t g + (a2 + animation_lock spec)).
      * rewrite S1. exact Hl.
      * unfold busy. rewrite S2, G, T, Ca, S1. lia.
  - injection H as <- <- <- <-. split; [exact CS|]. split; [exact W|]. split; [exact C|].
    split; [|exact Tr]. intros l Hl. apply sched_ogcd.
    + rewrite S2; exact G.
    + rewrite T; discriminate.
    + rewrite S1. reflexivity.
    + replace (pl_time p' + busy p') with (press_time false t g + animation_lock spec); [exact Hl|].
      unfold busy. rewrite S2, G, T, S1. lia.
Qed.
Lemma seq_log_spec st l : forall tk t g log r,
  seq_log st tk t g l = Ok (log, r) ->
  Forall2 carries_seq l log /\ Forall (well_played st) log /\ Forall (fun p => 0 <= pl_cast p) log
  /\ scheduled st t g log /\ tracked tk log.
Proof.
  induction l as [|x l IH]; intros tk t g log r; cbn [seq_log]; intros H.
  - injection H as <- <-. repeat constructor.
  - inv_bind H. destruct a as [[[p tk1] t1] g1]. inv_bind H. destruct a as [log' r']. injection H as <- <-.
    apply seq_effect_spec in E as (C & W & P & S & T). apply IH in E0 as (C' & W' & P' & S' & T').
    repeat (split; [constructor; assumption|]). split; [apply S, S' | apply T, T'].
Qed.
Lemma sequence_log_spec b log :
  sequence_log b = Ok log ->
  Forall2 carries_seq (b_sequence b) log /\ Forall (well_played (b_stats b)) log
  /\ Forall (fun p => 0 <= pl_cast p) log
  /\ scheduled (b_stats b) (match b_fight_start b with Some t => t | None => 0 end) None log
  /\ exists tk, new_trackers (b_library b) (st_job (b_stats b)) (b_priority b) = Ok tk /\ tracked tk log.
Proof.
  unfold sequence_log. intros H. inv_bind H. inv_bind H. destruct a0 as [log' r]. injection H as <-.
  apply seq_log_spec in E0 as (C & W & P & S & T). repeat (split; [assumption|]). exists a. auto.
Qed.

(** ** Consequences of the schedule *)

Definition locks_nonneg (log : list played) : Prop :=
  forall p spec, In p log -> pl_timing p = Some spec -> 0 <= animation_lock spec.

Lemma scheduled_ready st t g log :
  scheduled st t g log -> Forall (fun p => 0 <= pl_cast p) log -> locks_nonneg log ->
  StronglySorted (fun p q => pl_time p <= pl_time q) log /\ Forall (fun p => t <= pl_time p) log.
Proof.
  induction 1 as [|t g p l G Ti E S IH|t g p l spec r G Ti R E1 E2 S IH]; intros C L.
  - split; constructor.
  - inversion C as [|? ? C1 C2]; subst. destruct IH as (I1 & I2); [exact C2 | intros q s Hq; apply L; right; exact Hq|].
    destruct (pl_timing p) as [spec|] eqn:T; [|congruence].
    assert (B : 0 <= busy p). { unfold busy. rewrite G, T. specialize (L p spec (or_introl eq_refl) T). lia. }
    rewrite Forall_forall in I2. split.
    + constructor; [exact I1|]. apply Forall_forall. intros q Hq. specialize (I2 q Hq). lia.
    + constructor; [lia|]. apply Forall_forall. intros q Hq. specialize (I2 q Hq). lia.
  - inversion C as [|? ? C1 C2]; subst. destruct IH as (I1 & I2); [exact C2 | intros q s Hq; apply L; right; exact Hq|].
    assert (B : 0 <= busy p). { unfold busy. rewrite G, Ti. specialize (L p spec (or_introl eq_refl) Ti). lia. }
    assert (T : t <= pl_time p). { destruct g as [g0|]; [rewrite (E1 g0 eq_refl); lia | rewrite E2; [lia | reflexivity]]. }
    rewrite Forall_forall in I2. split.
    + constructor; [exact I1|]. apply Forall_forall. intros q Hq. specialize (I2 q Hq). lia.
    + constructor; [lia|]. apply Forall_forall. intros q Hq. specialize (I2 q Hq). lia.
Qed.

(** The first GCD of a schedule waits for [g]. *)
Lemma scheduled_gcd_wait st t g log pre q post :
  scheduled st t (Some g) log -> log = (pre ++ q :: post)%list ->
  (forall p, In p pre -> sk_is_GCD (pl_skill p) = false) -> sk_is_GCD (pl_skill q) = true ->
  g <= pl_time q.
Proof.
  intros S. revert pre. remember (Some g) as g0 eqn:Eg. revert g Eg.
  induction S as [|t g0 p l G Ti E S IH|t g0 p l spec r G Ti R E1 E2 S IH]; intros g Eg pre EL Pre Q.
  - destruct pre; discriminate.
  - destruct pre as [|x pre]; cbn in EL; injection EL as <- EL; [congruence|].
    eapply IH; [exact Eg | exact EL | intros; apply Pre; right; assumption | exact Q].
  - destruct pre as [|x pre]; cbn in EL; injection EL as <- EL.
    + rewrite (E1 g Eg). lia.
    + specialize (Pre p (or_introl eq_refl)). congruence.
Qed.

Lemma scheduled_gap st t g log pre p mid q post :
  scheduled st t g log -> log = (pre ++ p :: mid ++ q :: post)%list ->
  sk_is_GCD (pl_skill p) = true -> sk_is_GCD (pl_skill q) = true ->
  (forall x, In x mid -> sk_is_GCD (pl_skill x) = false) ->
  exists spec r, pl_timing p = Some spec /\ is_recast_time st spec (pl_buffs p) (pl_debuffs p) r
    /\ pl_time p + r <= pl_time q.
Proof.
  intros S. revert pre. induction S as [|t g p0 l G Ti E S IH|t g p0 l spec r G Ti R E1 E2 S IH]; intros pre EL P Q M.
  - destruct pre; discriminate.
  - destruct pre as [|x pre]; cbn in EL; injection EL as <- EL; [congruence|]. eapply IH; eassumption.
  - destruct pre as [|x pre]; cbn in EL; injection EL as <- EL; [|eapply IH; eassumption].
    exists spec, r. split; [exact Ti|]. split; [exact R|].
    eapply scheduled_gcd_wait; eassumption.
Qed.

Lemma recast_floor st spec bu de r :
  is_recast_time st spec bu de r -> gcd_base_recast spec = 2500 -> 1500 <= r.
Proof.
  intros (t & _ & _ & A & B) E. destruct (Z.le_gt_cases 1500 (t - ef_flat_gcd bu)) as [H|H].
  - rewrite (A E H). exact H.
  - rewrite (B E ltac:(lia)). lia.
Qed.

(** ** Order of snapshot and application *)

Lemma played_order p :
  0 <= pl_cast p ->
  (forall spec, pl_timing p = Some spec -> 0 <= application_delay spec) ->
  pl_time p <= pl_snapshot p <= pl_application p.
Proof.
  intros C D. unfold pl_snapshot, pl_application, delay_after_cast.
  destruct (Z.leb_spec (pl_cast p) 500); split; try lia;
  destruct (sm_ignore_application_delay (pl_modifier p)); try lia; destruct (pl_timing p) as [spec|]; try lia;
  specialize (D spec eq_refl); destruct (Z.leb_spec (pl_cast p) 0); try lia;
  destruct (Z.leb_spec (application_delay spec) 500); lia.
Qed.
