(** * Facts about whole timelines *)

From Coq Require Import ZArith QArith List String Bool Lia Permutation Sorted.
From Verif Require Import Base Float Heap Strings Types Lookup StatusEffect JobResource Combo
  Channeling Stats Library Events Rotation BaseFacts FloatFacts HeapFacts SpecQueue EventsFacts SpecPlay PlayFacts
  LogFacts SpecTimeline.
Import ListNotations.
Open Scope Z_scope.

(** ** Queues built by [add] *)

(** Nothing in the queue has equal snapshot and application times kept apart, nor any
    of the flags the damage builder sets. *)
Definition fresh (e : event) : Prop :=
  ev_secondary e <> Some (ev_primary e)
  /\ ev_targets e <> []
  /\ ev_jr_added e = false /\ ev_jr_cond e = false /\ ev_combo_cond e = false.

Definition plain (c : add_call) : Prop :=
  ad_id c = None /\ ad_targets c <> [] /\ ad_jr_added c = false /\ ad_jr_cond c = false /\ ad_combo_cond c = false.

Lemma stored_fresh n c : plain c -> fresh (stored_event n c).
Proof.
  intros (_ & T & A & B & C). unfold fresh, stored_event; cbn. split; [|auto].
  destruct (ad_secondary c) as [t|]; [|discriminate]. destruct (Z.eq_dec t (ad_primary c)); congruence.
Qed.

Lemma anon_stored n c : anon (stored_event n c) = entry c.
Proof. reflexivity. Qed.
Lemma anon_stored_events l n : map anon (stored_events n l) = map entry l.
Proof. revert n; induction l as [|c l IH]; intros n; cbn; [reflexivity|]. rewrite IH. reflexivity. Qed.

Definition good (qu : queue) : Prop := q_inv qu /\ Forall fresh (q_heap qu).

Lemma good_init : good q_init.
Proof. split; [apply q_init_inv | constructor]. Qed.

Lemma adds_bag l qu qu' :
  foldM api_add l qu = Ok qu' -> Permutation (map anon (q_heap qu')) (map anon (q_heap qu) ++ map entry l).
Proof.
  intros H. apply api_adds_spec in H as (P & _). rewrite P, map_app, anon_stored_events. reflexivity.
Qed.
Lemma stored_events_fresh l n : Forall plain l -> Forall fresh (stored_events n l).
Proof.
  revert n; induction l as [|c l IH]; intros n H; cbn; [constructor|]. inversion H; subst.
  constructor; [apply stored_fresh; assumption | apply IH; assumption].
Qed.
Lemma adds_good l qu qu' : foldM api_add l qu = Ok qu' -> Forall plain l -> good qu -> good qu'.
Proof.
  intros H Pl (I & F). apply api_adds_spec in H as (P & I'). split; [auto|].
  rewrite P. apply Forall_app. split; [exact F | apply stored_events_fresh, Pl].
Qed.

(** Rebuilding a queue: ids are 0, 1, ... in the given order. *)
Lemma adds_ids l qu' :
  foldM api_add l q_init = Ok qu' -> Forall plain l ->
  exists evs, Permutation (q_heap qu') evs /\ map ev_id evs = map Z.of_nat (seq 0 (List.length l))
    /\ map anon evs = map entry l.
Proof.
  intros H Pl. apply api_adds_spec in H as (P & _). cbn in P. exists (stored_events 0 l).
  split; [exact P|]. split; [|apply anon_stored_events].
  assert (N : forall c, In c l -> ad_id c = None). { intros c Hc. rewrite Forall_forall in Pl. apply Pl, Hc. }
  pose proof (stored_events_ids l 0 N) as S. exact S.
Qed.

(** ** Rebuilding a queue from its events *)

Lemma fresh_anon e : fresh e -> anon e = entry (mkAdd (ev_priority e) (ev_primary e) (ev_secondary e) (ev_skill e)
  (ev_modifier e) (ev_snap e) None false false false (ev_targets e)).
Proof.
  intros (N & _ & A & B & C). unfold entry, anon, stored_event; cbn. rewrite A, B, C.
  destruct (ev_secondary e) as [t|]; [|reflexivity]. destruct (Z.eq_dec t (ev_primary e)); [congruence | reflexivity].
Qed.

Definition shift_call (d : Z) (e : event) : add_call :=
  mkAdd (ev_priority e - 1000 * d) (ev_primary e - d) (option_map (fun t => t - d) (ev_secondary e)) (ev_skill e)
    (ev_modifier e) (ev_snap e) None false false false (ev_targets e).
Lemma shift_event_eq d qu e : shift_event d qu e = api_add qu (shift_call d e).
Proof. reflexivity. Qed.
Lemma shift_call_plain d e : fresh e -> plain (shift_call d e).
Proof. intros (_ & T & _). split; [reflexivity|]. split; [exact T|]. auto. Qed.
Lemma shift_call_entry d e : fresh e -> entry (shift_call d e) = earlier d (anon e).
Proof.
  intros (N & _ & A & B & C). unfold entry, anon, stored_event, earlier, shift_call; cbn. rewrite A, B, C.
  destruct (ev_secondary e) as [t|]; cbn; [|reflexivity].
  destruct (Z.eq_dec (t - d) (ev_primary e - d)); [assert (t = ev_primary e) by lia; congruence | reflexivity].
Qed.

Lemma foldM_map {A B C} (f : C -> B -> res C) (g : A -> B) l s : foldM f (map g l) s = foldM (fun s a => f s (g a)) l s.
Proof.
  revert s; induction l as [|a l IH]; intros s; cbn; [reflexivity|]. destruct (f s (g a)); cbn; [apply IH | reflexivity].
Qed.

Lemma shift_fold d evs qu : foldM (shift_event d) evs qu = foldM api_add (map (shift_call d) evs) qu.
Proof. rewrite foldM_map. reflexivity. Qed.

Lemma damages_anon e c : damages (anon e) c <-> damages e c.
Proof. reflexivity. Qed.
Lemma effect_time_ev e t : effect_time e t <-> ev_time e = t.
Proof. unfold effect_time, ev_time. destruct (ev_secondary e); split; intros H; [destruct H as [H|[H _]]; congruence | left; congruence | destruct H as [H|[_ H]]; congruence | right; auto]. Qed.

(** ** First damage *)

Lemma first_damage_aux l : forall acc r,
  foldM first_damage_step l acc = Ok r ->
  (r = None -> acc = None /\ forall e c, In e l -> ~ damages e c)
  /\ (forall d, r = Some d ->
        ((acc = Some d) \/ exists e c, In e l /\ damages e c /\ ev_time e = d)
        /\ (forall a, acc = Some a -> d <= a) /\ (forall e c, In e l -> damages e c -> d <= ev_time e)).
Proof.
  induction l as [|e l IH]; intros acc r; cbn [foldM]; intros H.
  - injection H as <-. split; [intros ->; split; [reflexivity | intros e c []]|]. intros d ->. split; [left; reflexivity|].
    split; [intros a E; injection E as <-; lia | intros e c []].
  - inv_bind H. unfold first_damage_step in E. inv_bind E. destruct a0 as [sp|].
    + injection E as <-. apply IH in H as (H1 & H2). split.
      * intros ->. destruct (H1 eq_refl) as (X & _). discriminate X.
      * intros d ->. destruct (H2 d eq_refl) as (A & B & C). specialize (B _ eq_refl). split; [|split].
        -- destruct A as [A|(e' & c & Hin & Hd & Ht)]; [|right; exists e', c; split; [right; exact Hin | auto]].
           injection A as A. destruct acc as [a|].
           ++ destruct (Z.min_dec (ev_time e) a) as [M|M]; rewrite M in A; [right | left; congruence].
              exists e, (damage_class sp). split; [left; reflexivity|]. split; [exists sp; auto | exact A].
           ++ right. exists e, (damage_class sp). split; [left; reflexivity|]. split; [exists sp; auto | exact A].
        -- intros a ->. lia.
        -- intros e' c [<-|Hin] Hd; [destruct acc; lia | eapply C; eassumption].
    + injection E as <-. apply IH in H as (H1 & H2). 
      assert (ND : forall c, ~ damages e c) by (intros c (sp & G & _); congruence).
      split.
      * intros ->. destruct (H1 eq_refl) as (-> & X). split; [reflexivity|]. intros e' c [<-|Hin]; [apply ND | apply X, Hin].
      * intros d ->. destruct (H2 d eq_refl) as (A & B & C). split; [|split].
        -- destruct A as [A|(e' & c & Hin & Hd & Ht)]; [left; exact A|]. right; exists e', c. split; [right; exact Hin | auto].
        -- exact B.
        -- intros e' c [<-|Hin] Hd; [destruct (ND _ Hd) | eapply C; eassumption].
Qed.

Lemma get_first_damage_spec qu r :
  get_first_damage_time qu = Ok r ->
  match r with
  | None => forall e c, In e (q_heap qu) -> ~ damages e c
  | Some d => earliest_damage (map anon (q_heap qu)) d
  end.
Proof.
  intros H. apply first_damage_aux in H as (H1 & H2). destruct r as [d|].
  - destruct (H2 d eq_refl) as ([X|(e & c & Hin & Hd & Ht)] & _ & C); [discriminate X|]. split.
    + exists (anon e), c. split; [apply in_map, Hin|]. split; [exact Hd|]. apply effect_time_ev. exact Ht.
    + intros e' c' t He' Hd' Ht'. apply in_map_iff in He' as (e0 & <- & He0). apply effect_time_ev in Ht'. subst t.
      apply (C e0 c' He0 Hd').
  - destruct (H1 eq_refl) as (_ & X). exact X.
Qed.

(** ** Last event *)

Lemma last_event_aux l : forall acc,
  let r := fold_left (fun acc e => Some (match acc with None => ev_time e | Some t => Z.max (ev_time e) t end)) l acc in
  (r = None -> acc = None /\ l = [])
  /\ (forall d, r = Some d -> (acc = Some d \/ exists e, In e l /\ ev_time e = d)
        /\ (forall a, acc = Some a -> a <= d) /\ (forall e, In e l -> ev_time e <= d)).
Proof.
  induction l as [|e l IH]; intros acc; cbn [fold_left].
  - cbv zeta. split; [auto|]. intros d ->. split; [left; reflexivity|]. split; [intros a E; injection E as <-; lia | intros e []].
  - cbv zeta in *. destruct (IH (Some (match acc with None => ev_time e | Some t => Z.max (ev_time e) t end))) as (H1 & H2). split.
    + intros E. destruct (H1 E) as (X & _). discriminate X.
    + intros d E. destruct (H2 d E) as (A & B & C). specialize (B _ eq_refl). split; [|split].
      * destruct A as [A|(e' & Hin & Ht)]; [|right; exists e'; split; [right; exact Hin | exact Ht]].
        injection A as A. destruct acc as [a|]; [|right; exists e; split; [left; reflexivity | exact A]].
        destruct (Z.max_dec (ev_time e) a) as [M|M]; rewrite M in A; [right | left; congruence].
        exists e. split; [left; reflexivity | exact A].
      * intros a ->. lia.
      * intros e' [<-|Hin]; [destruct acc; lia | apply C, Hin].
Qed.
Lemma get_last_event_spec qu : latest (map anon (q_heap qu)) (get_last_event_time qu).
Proof.
  unfold get_last_event_time. pose proof (last_event_aux (q_heap qu) None) as (H1 & H2). cbv zeta in *.
  set (r := fold_left _ _ _) in *. destruct r as [d|]; cbn.
  - destruct (H2 d eq_refl) as ([X|(e & Hin & Ht)] & _ & C); [discriminate X|]. split.
    + exists (anon e). split; [apply in_map, Hin | apply effect_time_ev; exact Ht].
    + intros e' t' H Ht'. apply in_map_iff in H as (e0 & <- & H). apply effect_time_ev in Ht'. subst t'. apply (C e0 H).
  - destruct (H1 eq_refl) as (_ & ->). reflexivity.
Qed.

(** ** Downtime *)

Definition wfun (w : windows) (target : string) : list window := windows_for w target.

Lemma filtered_spec w t target c : filtered w t target c = true <-> in_downtime (windows_for w target) t c.
Proof.
  unfold filtered, in_downtime. rewrite existsb_exists. split.
  - intros (r & Hin & H). apply andb_true_iff in H as (H1 & H2). unfold in_window in H1.
    apply andb_true_iff in H1 as (H1 & H3). exists r. split; [exact Hin|]. apply Qle_bool_iff in H1. apply qltb_spec in H3.
    split; [exact H1|]. split; [exact H3|]. unfold window_hits in H2. destruct (w_class r) as [c'|]; [|left; reflexivity].
    right. destruct c', c; try discriminate H2; reflexivity.
  - intros (r & Hin & H1 & H2 & H3). exists r. split; [exact Hin|]. apply andb_true_iff. unfold in_window. split.
    + apply andb_true_iff. split; [apply Qle_bool_iff, H1 | apply qltb_spec, H2].
    + unfold window_hits. destruct H3 as [->| ->]; [reflexivity | destruct c; reflexivity].
Qed.

Lemma keep_target_spec w e target b :
  keep_target w e target = Ok b -> (b = true <-> spared (windows_for w) e target).
Proof.
  unfold keep_target. intros H. inv_bind H. injection H as <-. unfold spared. destruct a as [sp|].
  - rewrite negb_true_iff, orb_false_iff. split.
    + intros (A & B) c t (sp' & G & <-) Ht. apply effect_time_ev in Ht. subst t. rewrite E in G. injection G as <-.
      rewrite <- !filtered_spec. split; congruence.
    + intros Hs. destruct (Hs (damage_class sp) (ev_time e)) as (A & B).
      * exists sp. auto.
      * apply effect_time_ev; reflexivity.
      * rewrite <- filtered_spec in A, B. split; [destruct (filtered w (ev_time e) target _) | destruct (filtered w (ev_primary e) target _)]; congruence.
  - split; [|reflexivity]. intros _ c t (sp & G & _). congruence.
Qed.
Lemma filterM_kept w e l : forall r, filterM (keep_target w e) l = Ok r -> kept (spared (windows_for w) e) l r.
Proof.
  induction l as [|x l IH]; intros r; cbn [filterM]; intros H.
  - injection H as <-. constructor.
  - inv_bind H. inv_bind H. injection H as <-. apply keep_target_spec in E. destruct a.
    + constructor; [apply E; reflexivity | apply IH, E0].
    + constructor; [intros X; apply E in X; discriminate | apply IH, E0].
Qed.

Definition rebuild_call (e : event) : add_call :=
  mkAdd (ev_priority e) (ev_primary e) (ev_secondary e) (ev_skill e) (ev_modifier e) (ev_snap e) None false false false
    (ev_targets e).

Lemma downtime_fold w evs : forall qu qu',
  foldM (downtime_event w) evs qu = Ok qu' ->
  exists evs', downtimed (windows_for w) evs evs' /\ foldM api_add (map rebuild_call evs') qu = Ok qu'.
Proof.
  induction evs as [|e evs IH]; intros qu qu'; cbn [foldM]; intros H.
  - injection H as <-. exists []. split; [constructor | reflexivity].
  - inv_bind H. unfold downtime_event in E. inv_bind E. apply filterM_kept in E0. destruct a0 as [|x tg].
    + injection E as <-. destruct (IH _ _ H) as (evs' & D & F). exists evs'. split; [constructor; assumption | exact F].
    + destruct (IH _ _ H) as (evs' & D & F). exists (with_targets e (x :: tg) :: evs').
      split; [constructor; [exact E0 | discriminate | exact D]|]. cbn [map foldM].
      change (q_add_new qu (ev_priority e) (ev_primary e) (ev_secondary e) (ev_skill e) (ev_modifier e) (ev_snap e) (x :: tg))
        with (api_add qu (rebuild_call (with_targets e (x :: tg)))) in E.
      rewrite E. exact F.
Qed.

Lemma rebuild_entry e : fresh e -> entry (rebuild_call e) = anon e.
Proof. intros H. symmetry. apply fresh_anon, H. Qed.

Lemma downtimed_forall w (P : event -> Prop) l l' :
  downtimed w l l' -> Forall P l -> (forall e tg, P e -> tg <> [] -> P (with_targets e tg)) -> Forall P l'.
Proof.
  induction 1; intros F H'; [constructor| |]; inversion F; subst; auto.
Qed.
Lemma fresh_targets e tg : fresh e -> tg <> [] -> fresh (with_targets e tg).
Proof. intros (A & _ & B) H. split; [exact A|]. split; [exact H | exact B]. Qed.

Lemma downtimed_anon w l l' : downtimed w l l' -> downtimed w (map anon l) (map anon l').
Proof.
  induction 1 as [|e l l' K D IH|e tg l l' K N D IH]; cbn [map]; [constructor | |].
  - constructor; [exact K | exact IH].
  - change (anon (with_targets e tg)) with (with_targets (anon e) tg). constructor; [exact K | exact N | exact IH].
Qed.
Lemma downtimed_perm w l m :
  Permutation l m -> forall l', downtimed w l l' -> exists m', downtimed w m m' /\ Permutation l' m'.
Proof.
  induction 1 as [|x l m P IH|x y l|l m n P1 IH1 P2 IH2]; intros l' D.
  - exists l'. auto.
  - inversion D; subst.
    + destruct (IH l') as (m' & D' & P'); [assumption|]. exists m'. split; [constructor; assumption | exact P'].
    + destruct (IH l'0) as (m' & D' & P'); [assumption|]. exists (with_targets x tg :: m').
      split; [constructor; assumption | constructor; exact P'].
  - inversion D as [|? ? ? K1 D1|? ? ? ? K1 N1 D1]; subst; inversion D1 as [|? ? ? K2 D2|? ? ? ? K2 N2 D2]; subst.
    + exists l'. split; [constructor; [assumption|]; constructor; assumption | reflexivity].
    + eexists. split; [apply dt_stays; [eassumption | assumption|]; apply dt_gone; eassumption | reflexivity].
    + eexists. split; [apply dt_gone; [assumption|]; apply dt_stays; eassumption | reflexivity].
    + eexists. split; [apply dt_stays; [eassumption | assumption|]; apply dt_stays; eassumption | apply perm_swap].
  - destruct (IH1 _ D) as (m' & D' & P'). destruct (IH2 _ D') as (n' & D'' & P''). exists n'.
    split; [exact D'' | rewrite P'; exact P''].
Qed.

(** Nothing is removed without windows. *)
Lemma kept_all {A} (P : A -> Prop) l l' : kept P l l' -> (forall x, In x l -> P x) -> l' = l.
Proof.
  induction 1; intros H'; [reflexivity | f_equal; apply IHkept; intros; apply H'; right; assumption |].
  destruct H. apply H'. left; reflexivity.
Qed.
Lemma spared_nil w e target : w target = [] -> spared w e target.
Proof. intros E c t _ _. rewrite E. split; intros (r & [] & _). Qed.
Lemma with_same_targets e : with_targets e (ev_targets e) = e.
Proof. destruct e; reflexivity. Qed.
Lemma downtimed_id w l l' :
  (forall t, w t = []) -> Forall (fun e => ev_targets e <> []) l -> downtimed w l l' -> l' = l.
Proof.
  intros W F D. induction D as [|e l l' K D IH|e tg l l' K N D IH]; [reflexivity| |]; inversion F; subst.
  - apply kept_all in K; [congruence | intros; apply spared_nil, W].
  - apply kept_all in K; [|intros; apply spared_nil, W]. subst tg. rewrite with_same_targets, IH by assumption. reflexivity.
Qed.

Lemma windows_for_of b target :
  windows_for (process_downtime_windows b) target = windows_of b target.
Proof.
  unfold windows_for, process_downtime_windows, windows_of. destruct (b_windows b) as [l|d]; [|reflexivity].
  destruct (in_dec String.string_dec target (b_targets b)) as [H|H].
  - induction (b_targets b) as [|k ks IH]; [destruct H|]. cbn. destruct (String.eqb_spec target k) as [->|N]; [reflexivity|].
    apply IH. destruct H as [->|H]; [congruence | exact H].
  - assert (E : dget target (map (fun k => (k, l)) (b_targets b)) = None).
    { apply dget_none_iff. unfold dkeys. rewrite map_map, map_id. exact H. }
    rewrite E. reflexivity.
Qed.
