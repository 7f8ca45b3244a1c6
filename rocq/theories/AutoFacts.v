(** * Facts about auto attacks *)

From Coq Require Import ZArith QArith Qround List String Bool Lia Permutation Sorted.
From Verif Require Import Base Float Heap Strings Types Lookup StatusEffect JobResource Combo
  Channeling Stats Library Events Rotation BaseFacts FloatFacts HeapFacts SpecQueue EventsFacts SpecPlay PlayFacts
  LogFacts SpecTimeline TimelineFacts SpecDots DotFacts SpecAuto.
Import ListNotations.
Open Scope Z_scope.
Local Opaque fl.

Lemma filter_all {A} (p : A -> bool) l : (forall x, In x l -> p x = true) -> filter p l = l.
Proof.
  induction l as [|x l IH]; intros H; [reflexivity|]. cbn [filter]. rewrite (H x) by (left; reflexivity). f_equal.
  apply IH. intros y Hy. apply H. right; exact Hy.
Qed.

(** ** Effects *)

Lemma has_speed_spec sp : has_speed sp = true <-> quickens sp.
Proof.
  unfold has_speed, quickens. destruct sp as [s|]; [|split; [discriminate | intros (s & H & _); discriminate H]].
  rewrite !orb_true_iff, !qltb_spec. unfold ext_pos. split.
  - intros H. exists s. split; [reflexivity|]. destruct H as [[H|H]|H]; [left; exact H | right; left; exact H |].
    right; right. destruct (flat_cast_time_reduction s); [apply Z.ltb_lt, H | exact I].
  - intros (s' & E & H). injection E as <-. destruct H as [H|[H|H]]; [left; left; exact H | left; right; exact H | right].
    destruct (flat_cast_time_reduction s); [apply Z.ltb_lt, H | reflexivity].
Qed.

Definition speed_of (e : event) : res (list (Z * skill)) :=
  let* bs := get_buff_spec (ev_skill e) (ev_modifier e) in
  let* ds := get_debuff_spec (ev_skill e) (ev_modifier e) in
  Ok (if has_speed bs || has_speed ds then [(ev_time e, ev_skill e)] else []).
Lemma speed_events_mapM l : forall r, mapM speed_of l = Ok r -> speed_events (map anon l) (List.concat r).
Proof.
  induction l as [|e l IH]; intros r; cbn [mapM map]; intros H; [injection H as <-; constructor|].
  inv_bind H. inv_bind H. injection H as <-. cbn [List.concat]. unfold speed_of in E. inv_bind E. rename a1 into bs0. inv_bind E. rename a1 into ds0. injection E as <-.
  assert (S : forall t, speed_event (anon e) t <-> t = ev_time e /\ has_speed bs0 || has_speed ds0 = true).
  { intros t. unfold speed_event. rewrite effect_time_ev. change (ev_time (anon e)) with (ev_time e).
    change (ev_skill (anon e)) with (ev_skill e). change (ev_modifier (anon e)) with (ev_modifier e).
    rewrite orb_true_iff, !has_speed_spec. split.
    - intros (-> & bs & ds & B & D & H). rewrite E1 in B. rewrite E2 in D. injection B as <-. injection D as <-. auto.
    - intros (-> & H). split; [reflexivity|]. exists bs0, ds0. auto. }
  destruct (has_speed bs0 || has_speed ds0) eqn:Hs.
  - cbn [app]. change (ev_skill e) with (ev_skill (anon e)). apply spe_yes; [|apply IH; exact E0]. apply S. auto.
  - cbn [app]. apply spe_no; [|apply IH; exact E0]. intros t H. apply S in H as (_ & H). discriminate H.
Qed.
Lemma speed_events_perm l l' : Permutation l l' ->
  forall out, speed_events l out -> exists out', speed_events l' out' /\ Permutation out out'.
Proof.
  induction 1 as [|e l l' P IH|e e' l|l l' l'' P1 IH1 P2 IH2]; intros out H.
  - inversion H; subst. exists []. split; constructor.
  - inversion H as [|? t ? o S H'|? ? o S H']; subst; destruct (IH _ H') as (o' & A & B).
    + exists ((t, ev_skill e) :: o'). split; [apply spe_yes; assumption | constructor; exact B].
    + exists o'. split; [apply spe_no; assumption | exact B].
  - inversion H as [|? t ? o S H'|? ? o S H']; subst; inversion H' as [|? t2 ? o2 S2 H2|? ? o2 S2 H2]; subst;
      eexists; (split; [repeat first [apply spe_no; [eassumption|] | apply spe_yes; [eassumption|]]; try eassumption|]); try reflexivity.
    apply perm_swap.
  - destruct (IH1 _ H) as (o & A & B). destruct (IH2 _ A) as (o' & C & D). exists o'. split; [exact C | etransitivity; eassumption].
Qed.

Lemma speed_timeline_spec qu l evs :
  speed_timeline qu = Ok l -> Permutation (map anon (q_heap qu)) evs ->
  exists raw, speed_events evs raw /\ Permutation raw l /\ StronglySorted (fun x y => fst x <= fst y) l.
Proof.
  unfold speed_timeline. fold speed_of. intros H P. inv_bind H. injection H as <-.
  apply speed_events_mapM in E.
  assert (P2 : Permutation (map anon (get_q qu)) evs) by (rewrite <- P; apply Permutation_map, get_q_perm).
  destruct (speed_events_perm _ _ P2 _ E) as (raw & A & B).
  exists raw. split; [exact A|]. split; [rewrite <- B; symmetry; apply sort_by_perm|]. exact (sort_by_sorted fst _).
Qed.

Lemma sorted_filter_le {A} (l : list (Z * A)) t : StronglySorted (fun x y => fst x <= fst y) l ->
  exists future, l = (filter (fun x => fst x <=? t) l ++ future)%list /\ Forall (fun x => t < fst x) future.
Proof.
  induction 1 as [|x l S IH F]; [exists []; split; [reflexivity | constructor]|]. cbn [filter]. destruct (fst x <=? t) eqn:E.
  - destruct IH as (f & H1 & H2). exists f. split; [cbn; f_equal; exact H1 | exact H2].
  - assert (G : Forall (fun y => t < fst y) l).
    { eapply Forall_impl; [|exact F]. intros y Hy. cbn in Hy. apply Z.leb_gt in E. lia. }
    exists (x :: l). rewrite filter_none.
    + split; [reflexivity|]. constructor; [apply Z.leb_gt, E | exact G].
    + intros y Hy. rewrite Forall_forall in G. apply Z.leb_gt, G, Hy.
Qed.
Lemma filter_sorted {A} (R : A -> A -> Prop) p l : StronglySorted R l -> StronglySorted R (filter p l).
Proof.
  induction 1 as [|x l S IH F]; cbn [filter]; [constructor|]. destruct (p x); [|exact IH]. constructor; [exact IH|].
  rewrite Forall_forall in *. intros y Hy. apply filter_In in Hy. apply F, Hy.
Qed.

Lemma started_fold targets l : forall se jr r,
  foldM (fun (st : se_tracker * jr_tracker) x =>
           let (se, jr) := st in
           let* se' := add_to_status_effects (expire_status_effects (fst x) se) (fst x) (snd x) default_modifier targets in
           let* jr' := add_resource jr (fst x) (snd x) default_modifier in Ok (se', jr')) l (se, jr) = Ok r ->
  started targets se l (fst r).
Proof.
  induction l as [|[t s] l IH]; intros se jr r; cbn [foldM]; intros H; [injection H as <-; constructor|].
  inv_bind H. inv_bind E. inv_bind E. injection E as <-. eapply st_cons; [exact E0 | exact (IH _ _ _ H)].
Qed.

Lemma applicable_effects_spec b qu l evs t auto buffs debuffs :
  speed_timeline qu = Ok l -> Permutation (map anon (q_heap qu)) evs ->
  applicable_effects b l t auto [b_default_target b] = Ok (buffs, debuffs) ->
  auto_effects b evs t auto buffs debuffs.
Proof.
  intros S P H. destruct (speed_timeline_spec _ _ _ S P) as (raw & R1 & R2 & R3).
  unfold applicable_effects in H. cbv zeta in H. inv_bind H. inv_bind H. destruct a0 as [se jr]. inv_bind H. destruct a0 as [se1 [bu mb]].
  inv_bind H. destruct a0 as [se2 [de md]]. injection H as <- <-.
  destruct (sorted_filter_le l t R3) as (fut & A & B).
  exists raw, (filter (fun x => fst x <=? t) l), fut, se, se1, se2, mb, md.
  split; [exact R1|]. split; [rewrite R2; rewrite A at 1; reflexivity|]. split; [apply filter_sorted, R3|].
  split; [apply Forall_forall; intros x Hx; apply filter_In in Hx; apply Z.leb_le, Hx|]. split; [exact B|].
  split; [exact (started_fold _ _ _ _ _ E0)|]. split; [exact E1 | exact E2].
Qed.

(** ** Waiting *)

Lemma in_window_spec w t : in_window w (q t) = true <-> (w_start w <= inject_Z t)%Q /\ (inject_Z t < w_end w)%Q.
Proof. unfold in_window. rewrite andb_true_iff, Qle_bool_iff, qltb_spec. reflexivity. Qed.
Lemma window_hits_spec w c : window_hits w c = true <-> w_class w = None \/ w_class w = Some c.
Proof.
  unfold window_hits. destruct (w_class w) as [c'|]; [|tauto]. destruct c', c; cbn; split; intros H; try discriminate; auto;
    destruct H as [H|H]; discriminate H.
Qed.
Lemma as_int_spec x z : as_int x = Ok z -> (x == inject_Z z)%Q.
Proof.
  unfold as_int. destruct (Qeq_bool (ffloor x) x) eqn:E; [|discriminate]. intros H; injection H as <-.
  apply Qeq_bool_iff in E. rewrite <- E at 1. reflexivity.
Qed.
Lemma forward_spec w t z : as_int (forward_downtime w t) = Ok z -> after_downtime w t z.
Proof.
  induction w as [|r w IH]; cbn [forward_downtime]; intros H.
  - apply as_int_spec in H. left. split; [|intros (r & [] & _)]. unfold q in H. apply -> inject_Z_injective in H. symmetry; exact H.
  - destruct (in_window r (q t) && window_hits r DC_AUTO) eqn:E.
    + apply andb_true_iff in E as (E1 & E2). apply in_window_spec in E1. apply window_hits_spec in E2.
      right. exists r. split; [left; reflexivity|]. split; [apply E1|]. split; [apply E1|]. split; [exact E2 | apply as_int_spec, H].
    + destruct (IH H) as [(-> & N)|(r' & I1 & I2)].
      * left. split; [reflexivity|]. intros (r' & [<-|Hin] & A & B & C).
        -- apply andb_false_iff in E as [E|E]; [apply not_true_iff_false in E; apply E, in_window_spec; auto | apply not_true_iff_false in E; apply E, window_hits_spec, C].
        -- apply N. exists r'. auto.
      * right. exists r'. split; [right; exact I1 | exact I2].
Qed.

Lemma z_le_ext_spec t e : z_le_ext t e = true <-> ext_le (Fin t) e.
Proof. unfold z_le_ext, z_gt_ext. destruct e; cbn; [rewrite negb_true_iff, Z.ltb_ge; reflexivity | tauto]. Qed.
Lemma ext_le_refl a : ext_le a a.
Proof. destruct a; cbn; [lia | exact I]. Qed.
Lemma ext_le_trans a b c : ext_le a b -> ext_le b c -> ext_le a c.
Proof. destruct a, b, c; cbn; try tauto; lia. Qed.
Lemma fold_ext_max l : forall x, let r := fold_left ext_max l x in
  (r = x \/ In r l) /\ ext_le x r /\ forall y, In y l -> ext_le y r.
Proof.
  induction l as [|y l IH]; intros x; cbn [fold_left]; cbv zeta.
  - split; [left; reflexivity|]. split; [apply ext_le_refl | intros y []].
  - destruct (IH (ext_max x y)) as (A & B & C). cbv zeta in *.
    assert (M : (ext_max x y = x \/ ext_max x y = y) /\ ext_le x (ext_max x y) /\ ext_le y (ext_max x y)).
    { destruct x as [x|], y as [y|]; cbn; try tauto. split; [|lia]. destruct (Z.max_spec x y) as [(_ & ->)|(_ & ->)]; auto. }
    destruct M as (M1 & M2 & M3). split; [|split].
    + destruct A as [A|A]; [rewrite A; destruct M1 as [->| ->]; [left | right; left]; reflexivity | right; right; exact A].
    + eapply ext_le_trans; eassumption.
    + intros z [<-|Hz]; [eapply ext_le_trans; eassumption | apply C, Hz].
Qed.

Lemma next_auto_time_spec w ps t e : next_auto_time w ps t = Ok e -> exists t1, after_downtime w t t1 /\ after_periods ps t1 e.
Proof.
  unfold next_auto_time. intros H. inv_bind H. exists a. split; [apply forward_spec, E|].
  assert (F : forall p, In p (filter (fun x => (fst x <=? a) && z_le_ext a (snd x)) ps) <-> In p ps /\ covers p a).
  { intros p. rewrite filter_In, andb_true_iff, Z.leb_le, z_le_ext_spec. reflexivity. }
  destruct (filter _ ps) as [|x l].
  - injection H as <-. left. split; [reflexivity|]. intros p Hp C. apply (proj2 (F p)). auto.
  - injection H as <-. right. destruct (fold_ext_max (map snd l) (snd x)) as (A & B & C). cbv zeta in *. split.
    + destruct A as [A|A].
      * exists x. destruct (proj1 (F x) (or_introl eq_refl)) as (X & Y). auto.
      * apply in_map_iff in A as (y & A & Hy). exists y. destruct (proj1 (F y) (or_intror Hy)) as (X & Y). auto.
    + intros p Hp Hc. destruct (proj2 (F p) (conj Hp Hc)) as [<-|Hl]; [exact B | apply C, in_map, Hl].
Qed.

(** ** Target *)

Definition target_at (d : string) (l : list (Z * string)) (t : Z) : string :=
  List.last (map snd (filter (fun x => fst x <=? t) l)) d.

Lemma last_cons {A} (x : A) l d : List.last (x :: l) d = List.last l x.
Proof.
  revert x d. induction l as [|y l IH]; intros x d; [reflexivity|]. change (List.last (x :: y :: l) d) with (List.last (y :: l) d).
  rewrite !IH. reflexivity.
Qed.
Lemma target_at_later d l t : Forall (fun x => t < fst x) l -> target_at d l t = d.
Proof.
  intros F. unfold target_at. rewrite filter_none; [reflexivity|]. intros x Hx. rewrite Forall_forall in F. apply Z.leb_gt, F, Hx.
Qed.
Lemma shorten_incl l : forall c x, In x (shorten_from c l) -> In x l.
Proof.
  induction l as [|y l IH]; intros c x; cbn [shorten_from]; [auto|]. destruct (String.eqb (snd y) c).
  - intros H. right. eapply IH, H.
  - intros [<-|H]; [left; reflexivity | right; eapply IH, H].
Qed.
Lemma shorten_sorted l : forall c, StronglySorted (fun x y : Z * string => fst x <= fst y) l ->
  StronglySorted (fun x y => fst x <= fst y) (shorten_from c l).
Proof.
  induction l as [|y l IH]; intros c S; cbn [shorten_from]; [constructor|]. inversion S as [|? ? S1 F]; subst.
  destruct (String.eqb (snd y) c); [apply IH, S1|]. constructor; [apply IH, S1|]. rewrite Forall_forall in *.
  intros x Hx. apply F. eapply shorten_incl, Hx.
Qed.
Lemma target_at_shorten l t : forall c, StronglySorted (fun x y => fst x <= fst y) l ->
  target_at c (shorten_from c l) t = target_at c l t.
Proof.
  induction l as [|y l IH]; intros c S; [reflexivity|]. inversion S as [|? ? S1 F]; subst. cbn [shorten_from].
  destruct (Z.leb_spec (fst y) t) as [L|L].
  - assert (T : forall m, target_at c (y :: m) t = target_at (snd y) m t).
    { intros m. unfold target_at. cbn [filter]. destruct (Z.leb_spec (fst y) t); [|lia]. cbn [map]. apply last_cons. }
    rewrite T. destruct (String.eqb_spec (snd y) c) as [->|N]; [apply IH, S1|]. rewrite T. apply IH, S1.
  - assert (G : Forall (fun x => t < fst x) (y :: l)).
    { constructor; [exact L|]. eapply Forall_impl; [|exact F]. intros x Hx. cbn in Hx. lia. }
    rewrite (target_at_later c (y :: l)) by exact G. apply target_at_later. inversion G as [|? ? G1 G2]; subst.
    assert (forall c', Forall (fun x => t < fst x) (shorten_from c' l)).
    { intros c'. rewrite Forall_forall in *. intros x Hx. apply G2. eapply shorten_incl, Hx. }
    destruct (String.eqb (snd y) c); [auto | constructor; auto].
Qed.

(** The number of entries not after [t]. *)
Definition reached (l : list (Z * string)) (t : Z) : nat := List.length (filter (fun x => fst x <=? t) l).
Lemma advance_count l : forall ind t, StronglySorted (fun x y : Z * string => fst x <= fst y) l ->
  advance l ind t = (ind + reached l t)%nat.
Proof.
  induction l as [|y l IH]; intros ind t S; cbn [advance]; [unfold reached; cbn; lia|]. inversion S as [|? ? S1 F]; subst.
  unfold reached. cbn [filter]. destruct (Z.leb_spec (fst y) t) as [L|L].
  - rewrite IH by exact S1. unfold reached. cbn [List.length]. lia.
  - rewrite filter_none; [cbn; lia|]. intros x Hx. rewrite Forall_forall in F. specialize (F x Hx). cbn in F. apply Z.leb_gt. lia.
Qed.
Lemma skipn_sorted {A} (R : A -> A -> Prop) n l : StronglySorted R l -> StronglySorted R (skipn n l).
Proof.
  revert l. induction n as [|n IH]; intros l S; [exact S|]. destruct l; [constructor|]. inversion S; subst. apply IH. assumption.
Qed.
Lemma advance_reached l ind t :
  StronglySorted (fun x y : Z * string => fst x <= fst y) l -> (ind <= reached l t)%nat ->
  advance (skipn ind l) ind t = reached l t.
Proof.
  intros S L. rewrite advance_count by (apply skipn_sorted, S).
  destruct (sorted_filter_le l t S) as (fut & A & B).
  assert (R : reached l t = List.length (filter (fun x => fst x <=? t) l)) by reflexivity. rewrite R in *.
  set (past := filter (fun x => fst x <=? t) l) in *.
  assert (P : forall x, In x past -> fst x <=? t = true) by (intros x Hx; apply filter_In in Hx; apply Hx).
  unfold reached. rewrite A. rewrite skipn_app. replace (ind - List.length past)%nat with 0%nat by lia. cbn [skipn].
  rewrite filter_app, (filter_none _ fut), app_nil_r.
  - rewrite (filter_all _ (skipn ind past)).
    + rewrite skipn_length. lia.
    + intros x Hx. apply P. rewrite <- (firstn_skipn ind past). apply in_or_app. right; exact Hx.
  - intros x Hx. rewrite Forall_forall in B. apply Z.leb_gt, B, Hx.
Qed.
Lemma nth_last {A} (l : list A) : forall x d, nth_error (x :: l) (List.length l) = Some (List.last (x :: l) d).
Proof.
  induction l as [|y l IH]; intros x d; [reflexivity|]. cbn [List.length nth_error]. rewrite (IH y d). reflexivity.
Qed.
Lemma target_nth x l t t0 target :
  StronglySorted (fun x y => fst x <= fst y) (x :: l) ->
  nth_error (x :: l) (Nat.pred (reached (x :: l) t)) = Some (t0, target) ->
  target = target_at (snd x) (x :: l) t.
Proof.
  intros S N. destruct (sorted_filter_le (x :: l) t S) as (fut & A & B). unfold reached in N. unfold target_at.
  destruct (filter (fun y => fst y <=? t) (x :: l)) as [|y past] eqn:E.
  - cbn in N |- *. injection N as N. rewrite N. reflexivity.
  - cbn [List.length Nat.pred] in N. rewrite A in N. change ((y :: past) ++ fut)%list with (y :: (past ++ fut))%list in N.
    assert (N2 : nth_error (y :: past) (List.length past) = Some (t0, target)).
    { change (y :: past ++ fut)%list with ((y :: past) ++ fut)%list in N. rewrite nth_error_app1 in N by (cbn; lia). exact N. }
    rewrite (nth_last past y (t0, target)) in N2. assert (N3 : List.last (y :: past) (t0, target) = (t0, target)) by congruence.
    assert (M : List.last (map snd (y :: past)) (snd x) = snd (List.last (y :: past) (t0, target))).
    { clear. revert y. induction past as [|z l IH]; intros y; [reflexivity|]. change (map snd (y :: z :: l)) with (snd y :: map snd (z :: l)).
      change (List.last (y :: z :: l) (t0, target)) with (List.last (z :: l) (t0, target)). rewrite <- IH. reflexivity. }
    rewrite M, N3. reflexivity.
Qed.

Lemma target_at_main presses x l t :
  sort_by fst presses = x :: l -> main_target presses t (target_at (snd x) (x :: l) t).
Proof.
  intros E. assert (S : StronglySorted (fun x y => fst x <= fst y) (x :: l)) by (rewrite <- E; exact (sort_by_sorted fst _)).
  exists (x :: l). split.
  - split; [exact S|]. rewrite <- E. split; [symmetry; apply sort_by_perm | intros k; apply sort_by_stable].
  - destruct (sorted_filter_le (x :: l) t S) as (fut & A & B). unfold target_at.
    destruct (filter (fun y => fst y <=? t) (x :: l)) as [|y past] eqn:F.
    + right. rewrite A. cbn [app]. split; [exact B|]. cbn [app] in A. rewrite <- A. destruct x as [t0 s]. exists t0, l. reflexivity.
    + left. destruct (exists_last (l := y :: past)) as (pre & [t0 s] & Z); [discriminate|].
      exists pre, t0, fut. rewrite A, Z, <- app_assoc. cbn [app]. split; [|split; [|exact B]].
      * rewrite map_app. cbn [map snd]. rewrite last_last. reflexivity.
      * assert (I : In (t0, s) (filter (fun y => fst y <=? t) (x :: l))) by (rewrite F, Z; apply in_or_app; right; left; reflexivity).
        apply filter_In in I as (_ & I). apply Z.leb_le, I.
Qed.

(** ** The loop *)

Lemma auto_delay_spec s d : auto_delay_of s = Ok d -> exists spec, sk_timing s = COne spec /\ d = application_delay spec.
Proof. unfold auto_delay_of. destruct (sk_timing s) as [|ts|]; try discriminate. intros H; injection H as <-. exists ts. auto. Qed.
Lemma auto_skill_spec b s : auto_skill_of (b_library b) (st_job (b_stats b)) = Ok s -> auto_skill b s.
Proof. unfold auto_skill_of. intros H. inv_bind H. destruct a; [left | right]; auto. Qed.

Lemma after_downtime_le w t t' : after_downtime w t t' -> t <= t'.
Proof.
  intros [(-> & _)|(r & _ & _ & L & _ & E)]; [lia|]. rewrite E in L. rewrite <- Zlt_Qlt in L. lia.
Qed.
Lemma after_periods_le ps t t' : after_periods ps t (Fin t') -> t <= t'.
Proof.
  intros [(E & _)|((p & _ & (_ & C) & E) & _)]; [injection E as ->; lia|]. rewrite <- E in C. exact C.
Qed.
Lemma next_auto_le b target due t' : next_auto b target due (Fin t') -> due <= t'.
Proof. intros (t & ps & A & _ & B). apply after_downtime_le in A. apply after_periods_le in B. lia. Qed.

Section Loop.
  Variables (b : builder) (w : windows) (base : list event) (auto : skill) (delay last : Z).
  Hypothesis Hw : forall target, windows_for w target = windows_of b target.
  Let c := with_windows b w.
  Let wd := qtrunc (fmul (q 1000) (st_weapon_delay (b_stats b))).
  Variables (x0 : Z * string) (stamps : list (Z * string)).
  Hypothesis Sorted_stamps : StronglySorted (fun x y => fst x <= fst y) (x0 :: stamps).

  Lemma auto_loop_spec fuel : forall qu snapshot ind qu' done,
    Permutation (map anon (q_heap qu)) (base ++ map entry (map (hit_call auto delay) done)) ->
    auto_loop fuel c (x0 :: stamps) auto delay wd last qu snapshot ind = Ok qu' ->
    exists hits, autos b base auto delay last done snapshot hits
      /\ foldM api_add (map (hit_call auto delay) hits) qu = Ok qu'
      /\ ((ind <= reached (x0 :: stamps) snapshot)%nat -> Forall (fun h => 0 <= hit_gap h) hits ->
          Forall (fun h => hit_target h = target_at (snd x0) (x0 :: stamps) (hit_time h)) hits).
  Proof.
    induction fuel as [|fuel IH]; intros qu snapshot ind qu' done P; cbn [auto_loop].
    - destruct (Z.ltb_spec (snapshot + delay) last) as [L|L]; [discriminate|]. intros H; injection H as <-. exists [].
      split; [apply autos_end; lia|]. split; [reflexivity | intros; constructor].
    - destruct (Z.ltb_spec (snapshot + delay) last) as [L|L]; cbn [negb];
        [|intros H; injection H as <-; exists []; split; [apply autos_end; lia|]; split; [reflexivity | intros; constructor]].
      intros H. inv_bind H. destruct a as [t0 target]. inv_bind H. rename a into q1. inv_bind H. rename a into tl. inv_bind H.
      destruct a as [bu de]. inv_bind H. rename a into ps. inv_bind H. rename a into nxt.
      change (truncate_to_digit2 _) with (hasted_delay (b_stats b) bu de) in *.
      set (g := hasted_delay (b_stats b) bu de) in *. set (h := mkHit snapshot target g).
      assert (Q1 : api_add qu (hit_call auto delay h) = Ok q1) by exact E0.
      assert (P1 : Permutation (map anon (q_heap q1)) (base ++ map entry (map (hit_call auto delay) (done ++ [h])))).
      { assert (F1 : foldM api_add [hit_call auto delay h] qu = Ok q1) by (cbn [foldM]; rewrite Q1; reflexivity).
        apply adds_bag in F1. rewrite F1, P, !map_app. rewrite app_assoc. reflexivity. }
      assert (Ef : auto_effects b (base ++ map entry (map (hit_call auto delay) (done ++ [h]))) snapshot auto bu de).
      { eapply applicable_effects_spec; [exact E1 | exact P1 | exact E2]. }
      assert (Nx : next_auto b target (snapshot + g) nxt).
      { destruct (next_auto_time_spec _ _ _ _ E4) as (t1 & N1 & N2). exists t1, ps.
        split; [rewrite <- Hw; exact N1|]. split; [exact E3 | exact N2]. }
      assert (Tg : (ind <= reached (x0 :: stamps) snapshot)%nat -> target = target_at (snd x0) (x0 :: stamps) snapshot
                   /\ (Nat.pred (advance (skipn ind (x0 :: stamps)) ind snapshot) <= reached (x0 :: stamps) snapshot)%nat).
      { intros I. pose proof (advance_reached _ _ _ Sorted_stamps I) as Ar. cbn [of_option] in E.
        rewrite Ar in *. split; [|lia]. destruct (nth_error (x0 :: stamps) _) as [[t1 tg]|] eqn:N in E; [|discriminate E].
        injection E as <- <-. eapply target_nth; [exact Sorted_stamps | exact N]. }
      destruct nxt as [t'|].
      + destruct (IH q1 t' _ qu' (done ++ [h])%list P1 H) as (hits & A & B & C). exists (h :: hits).
        split; [eapply autos_more; eassumption|]. split; [cbn [map foldM]; rewrite Q1; exact B|].
        intros I G. pose proof (Forall_inv G) as G1. pose proof (Forall_inv_tail G) as G2. destruct (Tg I) as (T1 & T2). constructor; [exact T1|].
        apply C; [|exact G2]. cbn in G1. apply next_auto_le in Nx. etransitivity; [exact T2|].
        assert (snapshot <= t') as M by lia. clear - M. unfold reached.
        induction (x0 :: stamps) as [|y l IHl]; [reflexivity|]. cbn [filter].
        destruct (Z.leb_spec (fst y) snapshot), (Z.leb_spec (fst y) t'); cbn [List.length]; lia.
      + injection H as <-. exists [h]. split; [eapply autos_last; eassumption|].
        split; [cbn [map foldM]; rewrite Q1; reflexivity|]. intros I G. constructor; [apply (Tg I) | constructor].
  Qed.
End Loop.

Lemma add_autos_spec b w presses base last0 qu qu' :
  (forall target, windows_for w target = windows_of b target) ->
  Permutation (map anon (q_heap qu)) base ->
  add_autos (with_windows b w) presses last0 qu = Ok qu' ->
  exists au hits calls, autos_delivered b presses base last0 au hits calls /\ foldM api_add calls qu = Ok qu'.
Proof.
  intros Hw P H. unfold add_autos in H. inv_bind H. rename a into short. inv_bind H. rename a into au. inv_bind H. inv_bind H. rename a0 into first.
  inv_bind H. rename a0 into delay. inv_bind H. rename a0 into last.
  unfold shorten_sequence in E. destruct (sort_by fst presses) as [|x l] eqn:Es; [discriminate E|]. injection E as <-.
  assert (S : StronglySorted (fun x y => fst x <= fst y) (x :: l)) by (rewrite <- Es; exact (sort_by_sorted fst _)).
  assert (S2 : StronglySorted (fun x y => fst x <= fst y) (x :: shorten_from (snd x) l)).
  { inversion S as [|? ? S1 F]; subst. constructor; [apply shorten_sorted, S1|]. rewrite Forall_forall in *.
    intros y Hy. apply F. eapply shorten_incl, Hy. }
  cbn [with_windows b_library b_stats b_priority] in *.
  apply (auto_loop_spec b w base au delay last Hw x _ S2 _ _ _ _ _ []) in H.
  2:{ cbn. rewrite app_nil_r. exact P. }
  destruct H as (hits & A & B & C).
  apply auto_delay_spec in E3 as (spec & Sp & ->). exists au, hits, (map (hit_call au (application_delay spec)) hits). split; [|exact B].
  exists spec, first, last. split; [apply auto_skill_spec, E0|]. split; [exact Sp|]. split; [|split; [|split; [exact A|split; [reflexivity|]]]].
  - apply get_first_damage_spec in E1. destruct a as [d|]; [|discriminate E2]. injection E2 as <-. destruct E1 as ((e & c & I & D) & Y). split.
    + exists e, c. split; [eapply Permutation_in; eassumption | exact D].
    + intros e' c' t I'. apply Y. eapply Permutation_in; [apply Permutation_sym, P | exact I'].
  - destruct last0 as [t|]; [injection E4 as <-; reflexivity|]. pose proof (get_last_event_spec qu) as L.
    destruct (get_last_event_time qu) as [t|]; [|discriminate E4]. injection E4 as <-. cbn in *. destruct L as ((e & I & T) & Y). split.
    + exists e. split; [eapply Permutation_in; eassumption | exact T].
    + intros e' t' I'. apply Y. eapply Permutation_in; [apply Permutation_sym, P | exact I'].
  - intros G. specialize (C (Nat.le_0_l _) G). eapply Forall_impl; [|exact C]. intros h ->.
    replace (target_at (snd x) (x :: shorten_from (snd x) l) (hit_time h)) with (target_at (snd x) (x :: l) (hit_time h)).
    + apply target_at_main, Es.
    + unfold target_at. cbn [filter]. inversion S as [|? ? S1 F]; subst. pose proof (target_at_shorten l (hit_time h) (snd x) S1) as T. unfold target_at in T.
      destruct (fst x <=? hit_time h); cbn [map]; rewrite ?last_cons; symmetry; exact T.
Qed.

Lemma delivered_entries b presses base last0 au hits calls :
  autos_delivered b presses base last0 au hits calls -> Forall is_auto_entry calls.
Proof.
  intros (spec & first & last & _ & _ & _ & _ & _ & -> & _). apply Forall_forall. intros c H. apply in_map_iff in H as (h & <- & _).
  exists au, (hit_time h), (hit_time h + application_delay spec), (hit_target h). reflexivity.
Qed.
