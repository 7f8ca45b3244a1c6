(** * Facts about the event queue *)

From Coq Require Import ZArith QArith List String Bool Permutation Sorted Lia.
From Coq Require Import ZifyBool.
From Verif Require Import Base BaseFacts Heap HeapFacts Types Lookup Events SpecQueue.
Import ListNotations.
Open Scope Z_scope.

Lemma str_ltb_compare a b : str_ltb a b = true <-> String.compare a b = Lt.
Proof. unfold str_ltb. destruct (String.compare a b); split; congruence. Qed.
Lemma str_ltb_false_compare a b : str_ltb b a = false <-> String.compare a b <> Gt.
Proof.
  unfold str_ltb. rewrite (String.compare_antisym a b).
  destruct (String.compare b a); cbn; split; congruence.
Qed.

Lemma event_ltb_key a b : event_ltb b a = false <-> key_le a b.
Proof.
  unfold event_ltb, key_le. rewrite <- str_ltb_false_compare.
  destruct (str_ltb (sk_name (ev_skill b)) (sk_name (ev_skill a))); lia.
Qed.

Lemma event_ltb_asym a b : event_ltb a b = true -> event_ltb b a = false.
Proof.
  unfold event_ltb.
  pose proof (str_ltb_asym (sk_name (ev_skill a)) (sk_name (ev_skill b))).
  destruct (str_ltb (sk_name (ev_skill a)) _), (str_ltb (sk_name (ev_skill b)) _); try lia.
Qed.

Lemma event_ltb_ntrans a b c :
  event_ltb a b = false -> event_ltb b c = false -> event_ltb a c = false.
Proof.
  unfold event_ltb. intros H1 H2.
  pose proof (str_ltb_ntrans (sk_name (ev_skill a)) (sk_name (ev_skill b)) (sk_name (ev_skill c))).
  destruct (str_ltb (sk_name (ev_skill a)) (sk_name (ev_skill b))),
    (str_ltb (sk_name (ev_skill b)) (sk_name (ev_skill c))),
    (str_ltb (sk_name (ev_skill a)) (sk_name (ev_skill c))); try lia;
  (specialize (H eq_refl eq_refl); discriminate).
Qed.

Lemma key_le_refl a : key_le a a.
Proof. right. rewrite str_compare_refl. split; congruence. Qed.
Lemma key_le_trans a b c : key_le a b -> key_le b c -> key_le a c.
Proof. rewrite <- !event_ltb_key. intros H1 H2. exact (event_ltb_ntrans c b a H2 H1). Qed.
Lemma event_lt_true a b : event_lt a b = Ok true -> key_le a b.
Proof.
  unfold event_lt; intros H; injection H as H. apply event_ltb_key. apply event_ltb_asym; exact H.
Qed.
Lemma event_lt_false a b : event_lt a b = Ok false -> key_le b a.
Proof. unfold event_lt; intros H; injection H as H. apply event_ltb_key; exact H. Qed.
Lemma event_total h : total_on event_lt h.
Proof. intros a b _ _. eexists; reflexivity. Qed.

Definition q_inv (qu : queue) : Prop := is_heap key_le (q_heap qu).

Lemma q_init_inv : q_inv q_init.
Proof. apply is_heap_nil. Qed.

(** [heappush] of the stored event. *)
Lemma api_add_eq qu c :
  api_add qu c = let* h := heappush event_lt (q_heap qu) (stored_event (q_next_id qu) c) in
                 Ok (mkQueue h (next_after (q_next_id qu) c)).
Proof.
  unfold api_add, q_add, stored_event, next_after, opt_is.
  destruct (ad_secondary c) as [t|]; destruct (ad_id c); cbn; try reflexivity;
    destruct (Z.eq_dec t (ad_primary c)), (Z.eqb_spec t (ad_primary c)); try contradiction; reflexivity.
Qed.

Lemma q_add_eq qu p t1 t2 s m sn id a b c tg :
  q_add qu p t1 t2 s m sn id a b c tg =
  api_add qu (mkAdd p t1 t2 s m sn id a b c tg).
Proof. reflexivity. Qed.

Lemma api_add_total qu c : exists qu', api_add qu c = Ok qu'.
Proof.
  rewrite api_add_eq.
  destruct (heappush_total event_lt (q_heap qu) (stored_event (q_next_id qu) c)) as (h & ->);
    [apply event_total|].
  cbn; eauto.
Qed.

Lemma api_add_spec qu c qu' :
  api_add qu c = Ok qu' ->
  Permutation (q_heap qu') (stored_event (q_next_id qu) c :: q_heap qu)
  /\ q_next_id qu' = next_after (q_next_id qu) c
  /\ (q_inv qu -> q_inv qu').
Proof.
  rewrite api_add_eq. intros H. inv_bind H. injection H as <-. cbn.
  split; [|split].
  - symmetry. apply heappush_perm with (1 := E).
  - reflexivity.
  - unfold q_inv; cbn. intros I.
    eapply heappush_heap; [exact key_le_refl | exact key_le_trans | exact event_lt_true | exact event_lt_false | exact I | exact E].
Qed.

Lemma q_get_next_spec qu e qu' :
  q_inv qu -> q_get_next qu = Ok (e, qu') ->
  Permutation (q_heap qu) (e :: q_heap qu') /\ q_next_id qu' = q_next_id qu /\ q_inv qu'
  /\ (forall e', In e' (q_heap qu) -> key_le e e').
Proof.
  unfold q_get_next. intros I H. inv_bind H. destruct a as [x h]. injection H as <- <-. cbn.
  eapply heappop_spec in E as (P & I' & M);
    [| exact key_le_refl | exact key_le_trans | exact event_lt_true | exact event_lt_false | exact I].
  unfold q_inv; cbn; auto.
Qed.

Lemma q_get_next_total qu : q_heap qu <> [] -> exists e qu', q_get_next qu = Ok (e, qu').
Proof.
  intros N. unfold q_get_next.
  destruct (heappop_total event_lt (q_heap qu)) as (x & h & ->); [apply event_total | exact N |].
  cbn; eauto.
Qed.

Lemma q_get_next_empty qu : q_heap qu = [] -> q_get_next qu = Err IndexError.
Proof. unfold q_get_next. intros ->. reflexivity. Qed.

Lemma q_drain_spec qu l :
  q_inv qu -> q_drain qu = Ok l -> Permutation (q_heap qu) l /\ StronglySorted key_le l.
Proof.
  unfold q_drain; intros I H.
  eapply drain_spec in H;
    [exact H | exact key_le_refl | exact key_le_trans | exact event_lt_true | exact event_lt_false | exact I].
Qed.

Lemma q_drain_total qu : q_inv qu -> exists l, q_drain qu = Ok l.
Proof.
  intros I. eapply drain_total;
    [exact key_le_refl | exact key_le_trans | exact event_lt_true | exact event_lt_false | exact I
    | apply event_total | lia].
Qed.

Lemma api_adds_spec l qu qu' :
  foldM api_add l qu = Ok qu' ->
  Permutation (q_heap qu') (q_heap qu ++ stored_events (q_next_id qu) l)
  /\ (q_inv qu -> q_inv qu').
Proof.
  revert qu; induction l as [|c l IH]; intros qu; cbn; intros H.
  - injection H as <-. rewrite app_nil_r. split; [reflexivity | auto].
  - inv_bind H. apply api_add_spec in E as (P & N & I). apply IH in H as (P2 & I2).
    split; [|auto]. rewrite P2, N, P. cbn. apply Permutation_middle.
Qed.

Lemma api_adds_total l qu : exists qu', foldM api_add l qu = Ok qu'.
Proof.
  destruct (foldM_total api_add (fun _ => True) l qu I) as (q' & H & _); [|eauto].
  intros s a _ _. destruct (api_add_total s a) as (q' & H). eauto.
Qed.

Lemma queue_drains_in_order l :
  exists qu out,
    foldM api_add l q_init = Ok qu /\ q_drain qu = Ok out
    /\ Permutation out (stored_events 0 l) /\ StronglySorted key_le out.
Proof.
  destruct (api_adds_total l q_init) as (qu & E).
  apply api_adds_spec in E as S. destruct S as (P & I).
  specialize (I q_init_inv). destruct (q_drain_total qu I) as (out & D).
  exists qu, out. apply q_drain_spec in D as S; [|exact I]. destruct S as (P2 & S).
  repeat split; try assumption. rewrite <- P2. exact P.
Qed.

Lemma api_ops_refine_gen ops qu out st :
  q_inv qu ->
  foldM api_op ops (qu, out) = Ok st ->
  abs_run (q_heap qu, q_next_id qu, out) ops (q_heap (fst st), q_next_id (fst st), snd st).
Proof.
  revert qu out; induction ops as [|o ops IH]; intros qu out I; cbn [foldM]; intros H.
  - injection H as <-. constructor.
  - inv_bind H. destruct a as [q1 out1].
    assert (S : abs_op (q_heap qu, q_next_id qu, out) o (q_heap q1, q_next_id q1, out1) /\ q_inv q1).
    { destruct o as [c|]; cbn [api_op] in E; inv_bind E.
      - injection E as <- <-. apply api_add_spec in E0 as (P & N & I'). rewrite N. split; [constructor; exact P | auto].
      - destruct a as [e q']. injection E as <- <-.
        apply q_get_next_spec in E0 as (P & N & I' & M); [|exact I]. rewrite N. split; [constructor; assumption | auto]. }
    destruct S as [S I']. econstructor; [exact S|]. apply IH; assumption.
Qed.

Lemma api_ops_total_gen ops qu out :
  q_inv qu -> guarded (List.length (q_heap qu)) ops -> exists st, foldM api_op ops (qu, out) = Ok st.
Proof.
  revert qu out; induction ops as [|o ops IH]; intros qu out I G; cbn [foldM]; [eauto|].
  destruct o as [c|]; cbn [api_op guarded] in *.
  - destruct (api_add_total qu c) as (q' & E). rewrite E. cbn [bind].
    apply api_add_spec in E as (P & N & I'). apply IH; [auto|].
    apply Permutation_length in P. rewrite P. exact G.
  - destruct G as (m & L & G).
    destruct (q_get_next_total qu) as (e & q' & E).
    { intros E. rewrite E in L. discriminate. }
    rewrite E. cbn [bind]. apply q_get_next_spec in E as (P & N & I' & M); [|exact I].
    apply IH; [exact I'|]. apply Permutation_length in P. cbn in P.
    replace (List.length (q_heap q')) with m by lia. exact G.
Qed.

(** Converse: an unguarded [get_next] raises IndexError. *)
Lemma api_ops_error_gen ops qu out e :
  q_inv qu -> foldM api_op ops (qu, out) = Err e ->
  e = IndexError /\ ~ guarded (List.length (q_heap qu)) ops.
Proof.
  revert qu out; induction ops as [|o ops IH]; intros qu out I; cbn [foldM]; [discriminate|].
  destruct o as [c|]; cbn [api_op guarded].
  - destruct (api_add_total qu c) as (q' & E). rewrite E. cbn [bind].
    apply api_add_spec in E as (P & N & I'). intros H. apply IH in H; [|auto].
    apply Permutation_length in P. rewrite P in H. exact H.
  - destruct (q_heap qu) as [|x h] eqn:Hq.
    + rewrite q_get_next_empty by exact Hq. cbn. intros H; injection H as <-.
      split; [reflexivity|]. intros (m & L & _). discriminate.
    + destruct (q_get_next_total qu) as (x' & q' & E); [rewrite Hq; discriminate|].
      rewrite E. cbn [bind]. apply q_get_next_spec in E as (P & N & I' & M); [|exact I].
      intros H. apply IH in H; [|exact I']. destruct H as [-> H]. split; [reflexivity|].
      intros (m & L & G). apply H.
      apply Permutation_length in P. rewrite Hq in P. cbn in *.
      replace (List.length (q_heap q')) with m by lia. exact G.
Qed.

Lemma queue_refines_bag ops st :
  foldM api_op ops (q_init, []) = Ok st ->
  abs_run ([], 0, []) ops (q_heap (fst st), q_next_id (fst st), snd st).
Proof. intros H. apply (api_ops_refine_gen ops q_init [] st q_init_inv H). Qed.

Lemma queue_ok_iff_guarded ops :
  (exists st, foldM api_op ops (q_init, []) = Ok st) <-> guarded 0 ops.
Proof.
  split.
  - intros (st & H). destruct (foldM api_op ops (q_init, [])) as [st'|e] eqn:E; [|discriminate].
    clear H. revert E. cut (forall qu out st, q_inv qu -> foldM api_op ops (qu, out) = Ok st ->
                                 guarded (List.length (q_heap qu)) ops).
    { intros G E. apply (G q_init [] st' q_init_inv E). }
    clear. induction ops as [|o ops IH]; intros qu out st I; cbn [foldM guarded]; [auto|].
    intros H. inv_bind H. destruct a as [q1 out1]. destruct o as [c|]; cbn [api_op] in E; inv_bind E.
    + injection E as <- <-. apply api_add_spec in E0 as (P & N & I'). apply IH in H; [|auto].
      apply Permutation_length in P. rewrite P in H. exact H.
    + destruct a as [e q']. injection E as <- <-.
      apply q_get_next_spec in E0 as (P & N & I' & M); [|exact I]. apply IH in H; [|auto].
      apply Permutation_length in P. cbn in P. eauto.
  - intros G. apply api_ops_total_gen; [exact q_init_inv | exact G].
Qed.

(** ** get_q *)

Lemma get_q_perm qu : Permutation (get_q qu) (q_heap qu).
Proof. apply sort_lt_perm; [apply event_ltb_asym | apply event_ltb_ntrans]. Qed.

Lemma get_q_sorted qu : StronglySorted key_le (get_q qu).
Proof.
  pose proof (sort_lt_sorted event_ltb event_ltb_asym event_ltb_ntrans (q_heap qu)) as S.
  unfold get_q. induction S as [|a l S IH F]; constructor; [exact IH|].
  rewrite Forall_forall in *. intros b Hb. apply event_ltb_key. exact (F b Hb).
Qed.

Definition same_key (p : Z) (n : string) (e : event) : bool :=
  (ev_priority e =? p) && String.eqb (sk_name (ev_skill e)) n.

Lemma equiv_same_key x a :
  equiv event_ltb x a = same_key (ev_priority x) (sk_name (ev_skill x)) a.
Proof.
  unfold equiv, event_ltb, same_key.
  destruct (String.eqb_spec (sk_name (ev_skill a)) (sk_name (ev_skill x))) as [->|N].
  - rewrite !str_ltb_irrefl. lia.
  - destruct (str_ltb (sk_name (ev_skill x)) (sk_name (ev_skill a))) eqn:E1; [lia|].
    destruct (str_ltb (sk_name (ev_skill a)) (sk_name (ev_skill x))) eqn:E2; [lia|].
    exfalso; apply N. symmetry. apply str_ltb_total; assumption.
Qed.

Lemma get_q_stable qu p n :
  filter (same_key p n) (get_q qu) = filter (same_key p n) (q_heap qu).
Proof.
  destruct (existsb (same_key p n) (q_heap qu)) eqn:E.
  - apply existsb_exists in E. destruct E as (x & _ & Hx).
    unfold same_key in Hx. apply andb_prop in Hx as [H1 H2].
    apply Z.eqb_eq in H1. apply String.eqb_eq in H2. subst p n.
    rewrite <- !(filter_ext _ _ (equiv_same_key x)).
    apply sort_lt_stable; [apply event_ltb_asym | apply event_ltb_ntrans].
  - assert (G : forall l, (forall a, In a l -> same_key p n a = false) -> filter (same_key p n) l = []).
    { induction l as [|a l IH]; intros H; cbn; [reflexivity|].
      rewrite H by auto with datatypes. apply IH; auto with datatypes. }
    assert (H : forall a, In a (q_heap qu) -> same_key p n a = false).
    { intros a Ha. destruct (same_key p n a) eqn:F; [|reflexivity].
      assert (existsb (same_key p n) (q_heap qu) = true); [|congruence]. apply existsb_exists; eauto. }
    rewrite (G _ H). apply G. intros a Ha. apply H. apply (Permutation_in _ (get_q_perm qu)). exact Ha.
Qed.

(** ** Ids *)

Lemma stored_events_ids l n :
  (forall c, In c l -> ad_id c = None) ->
  map ev_id (stored_events n l) = map (fun i => n + Z.of_nat i) (seq 0 (List.length l)).
Proof.
  revert n; induction l as [|c l IH]; intros n H; cbn [stored_events map List.length seq]; [reflexivity|].
  unfold stored_event at 1, next_after. rewrite (H c) by auto with datatypes. cbn [ev_id]. f_equal; [lia|].
  rewrite IH by auto with datatypes. rewrite <- seq_shift, map_map.
  apply map_ext. intros; lia.
Qed.

(** ** Extrema *)

Lemma effect_time_ev_time e t : effect_time e t <-> ev_time e = t.
Proof.
  unfold effect_time, ev_time. destruct (ev_secondary e).
  - split; [intros [H|[H _]]; congruence | intros ->; auto].
  - split; [intros [H|[_ H]]; congruence | intros ->; auto].
Qed.

Lemma last_event_gen h acc :
  fold_left (fun acc e => Some (match acc with None => ev_time e | Some t => Z.max (ev_time e) t end)) h acc
  = match h, acc with
    | [], _ => acc
    | _, _ => Some (fold_left (fun m e => Z.max (ev_time e) m) h
                      (match acc with Some t => t | None => match h with e :: _ => ev_time e | [] => 0 end end))
    end.
Proof.
  revert acc; induction h as [|e h IH]; intros acc; [reflexivity|]. cbn [fold_left].
  rewrite IH. destruct h as [|e' h]; cbn [fold_left].
  - destruct acc; cbn; f_equal; lia.
  - destruct acc; cbn [fold_left]; do 2 f_equal; lia.
Qed.

Lemma fold_max_spec h m :
  let r := fold_left (fun m e => Z.max (ev_time e) m) h m in
  m <= r /\ (forall e, In e h -> ev_time e <= r) /\ (r = m \/ exists e, In e h /\ ev_time e = r).
Proof.
  revert m; induction h as [|e h IH]; intros m; cbn [fold_left].
  - repeat split; [lia | intros e [] | auto].
  - destruct (IH (Z.max (ev_time e) m)) as (H1 & H2 & H3). cbn in *.
    repeat split; [lia | |].
    + intros x [<-|Hx]; [lia | auto].
    + destruct H3 as [H3|(x & Hx & H3)].
      * destruct (Z.max_spec (ev_time e) m) as [[? M]|[? M]].
        -- left; lia.
        -- right; exists e; split; [auto | lia].
      * right; exists x; auto.
Qed.

Lemma last_event_time_spec qu :
  (get_last_event_time qu = None <-> q_heap qu = [])
  /\ forall t, get_last_event_time qu = Some t ->
       (exists e, In e (q_heap qu) /\ effect_time e t)
       /\ (forall e t', In e (q_heap qu) -> effect_time e t' -> t' <= t).
Proof.
  unfold get_last_event_time. rewrite last_event_gen. destruct (q_heap qu) as [|e0 h] eqn:Hq.
  - split; [tauto | discriminate].
  - split; [split; discriminate|]. intros t E.
    pose proof (fold_max_spec (e0 :: h) (ev_time e0)) as S. cbn zeta in S.
    remember (fold_left (fun m e => Z.max (ev_time e) m) (e0 :: h) (ev_time e0)) as r eqn:Hr.
    injection E as <-. destruct S as (H1 & H2 & H3). split.
    + destruct H3 as [->|(e & He & <-)].
      * exists e0. rewrite effect_time_ev_time. auto with datatypes.
      * exists e. rewrite effect_time_ev_time. auto.
    + intros e t' He Ht. apply effect_time_ev_time in Ht. subst. auto.
Qed.

(** An event deals damage when its skill has a damage spec under its modifier. *)
Definition deals_damage (e : event) : Prop :=
  exists d, get_damage_spec (ev_skill e) (ev_modifier e) = Ok (Some d).

Lemma first_damage_gen h acc r :
  foldM first_damage_step h acc = Ok r ->
  (forall e, In e h -> exists o, get_damage_spec (ev_skill e) (ev_modifier e) = Ok o)
  /\ (r = None <-> acc = None /\ forall e, In e h -> ~ deals_damage e)
  /\ (forall t, r = Some t ->
        (acc = Some t \/ exists e, In e h /\ deals_damage e /\ ev_time e = t)
        /\ (forall t0, acc = Some t0 -> t <= t0)
        /\ (forall e, In e h -> deals_damage e -> t <= ev_time e)).
Proof.
  revert acc; induction h as [|e h IH]; intros acc; cbn [foldM]; intros H.
  - injection H as <-. split; [intros ? []|]. split; [split; [intros ->; auto | tauto]|].
    intros t ->. split; [auto|]. split; [intros t0 Ht0; injection Ht0 as ->; lia | intros ? []].
  - inv_bind H. apply IH in H as (H1 & H2 & H3). unfold first_damage_step in E.
    inv_bind E. rename a0 into d.
    split; [intros x [<-|Hx]; eauto|].
    destruct d as [d|]; injection E as <-.
    + assert (De : deals_damage e) by (exists d; exact E0).
      split.
      * rewrite H2. split; [intros [? _]; discriminate | intros [_ N]].
        exfalso; apply (N e); auto with datatypes.
      * intros t Ht. specialize (H3 t Ht) as (A & B & C).
        specialize (B _ eq_refl) as B'. split; [|split].
        -- destruct A as [A|(x & Hx & Dx & Tx)].
           ++ injection A as <-. destruct acc as [t0|].
              ** destruct (Z.min_spec (ev_time e) t0) as [[L M]|[L M]]; rewrite M in *.
                 --- right; exists e; auto with datatypes.
                 --- auto.
              ** right; exists e; auto with datatypes.
           ++ right; exists x; auto with datatypes.
        -- intros t0 ->. lia.
        -- intros x [<-|Hx] Dx; [destruct acc; lia | auto].
    + assert (Ne : ~ deals_damage e) by (intros [d Hd]; congruence).
      split.
      * rewrite H2. split; intros [A B]; (split; [exact A|]); intros x Hx; [destruct Hx as [<-|Hx]|]; auto with datatypes.
      * intros t Ht. specialize (H3 t Ht) as (A & B & C). split; [|split].
        -- destruct A as [A|(x & Hx & Dx & Tx)]; [auto | right; exists x; auto with datatypes].
        -- exact B.
        -- intros x [<-|Hx] Dx; [contradiction | auto].
Qed.

Lemma first_damage_time_spec qu r :
  get_first_damage_time qu = Ok r ->
  (r = None <-> forall e, In e (q_heap qu) -> ~ deals_damage e)
  /\ forall t, r = Some t ->
       (exists e, In e (q_heap qu) /\ deals_damage e /\ effect_time e t)
       /\ (forall e t', In e (q_heap qu) -> deals_damage e -> effect_time e t' -> t <= t').
Proof.
  unfold get_first_damage_time. intros H. apply first_damage_gen in H as (H1 & H2 & H3).
  split; [rewrite H2; tauto|].
  intros t Ht. specialize (H3 t Ht) as (A & B & C). split.
  - destruct A as [A|(e & He & De & Te)]; [discriminate|].
    exists e. rewrite effect_time_ev_time. auto.
  - intros e t' He De Te. apply effect_time_ev_time in Te. subst. auto.
Qed.

Lemma first_damage_time_total qu :
  (exists r, get_first_damage_time qu = Ok r)
  <-> forall e, In e (q_heap qu) -> exists o, get_damage_spec (ev_skill e) (ev_modifier e) = Ok o.
Proof.
  split.
  - intros (r & H). apply first_damage_gen in H as (H1 & _). exact H1.
  - intros H. unfold get_first_damage_time.
    destruct (foldM_total first_damage_step (fun _ => True) (q_heap qu) None I) as (r & E & _).
    + intros s a Ha _. destruct (H a Ha) as (o & E). unfold first_damage_step. rewrite E. cbn. eauto.
    + eauto.
Qed.

Lemma add_collapse qu c qu' :
  api_add qu c = Ok qu' ->
  exists e,
    Permutation (q_heap qu') (e :: q_heap qu)
    /\ ev_primary e = ad_primary c
    /\ (ad_secondary c = Some (ad_primary c) ->
        ev_secondary e = None /\ ev_snap e = (SFlag true, SFlag true))
    /\ (ad_secondary c <> Some (ad_primary c) ->
        ev_secondary e = ad_secondary c /\ ev_snap e = ad_snap c)
    /\ ev_priority e = ad_priority c /\ ev_skill e = ad_skill c /\ ev_modifier e = ad_modifier c
    /\ ev_targets e = ad_targets c /\ ev_jr_added e = ad_jr_added c
    /\ ev_jr_cond e = ad_jr_cond c /\ ev_combo_cond e = ad_combo_cond c
    /\ (forall i, ad_id c = Some i -> ev_id e = i /\ q_next_id qu' = q_next_id qu)
    /\ (ad_id c = None -> ev_id e = q_next_id qu /\ q_next_id qu' = q_next_id qu + 1).
Proof.
  intros H. apply api_add_spec in H as (P & N & _).
  exists (stored_event (q_next_id qu) c). split; [exact P|].
  rewrite N. unfold stored_event, next_after; cbn.
  destruct (ad_secondary c) as [t|].
  - destruct (Z.eq_dec t (ad_primary c)) as [->|D].
    + repeat split; try congruence; destruct (ad_id c); congruence.
    + repeat split; try congruence; destruct (ad_id c); congruence.
  - repeat split; try congruence; destruct (ad_id c); congruence.
Qed.

Lemma stored_events_forall2 l n :
  Forall2 (fun c e => ev_priority e = ad_priority c /\ ev_primary e = ad_primary c
                      /\ ev_skill e = ad_skill c /\ ev_modifier e = ad_modifier c
                      /\ ev_targets e = ad_targets c) l (stored_events n l).
Proof.
  revert n; induction l as [|c l IH]; intros n; cbn; constructor; [|apply IH].
  repeat split.
Qed.

Lemma queue_ids_sequential l qu :
  (forall c, In c l -> ad_id c = None) ->
  foldM api_add l q_init = Ok qu ->
  exists evs,
    Permutation (q_heap qu) evs
    /\ map ev_id evs = map Z.of_nat (seq 0 (List.length l))
    /\ Forall2 (fun c e => ev_priority e = ad_priority c /\ ev_primary e = ad_primary c
                           /\ ev_skill e = ad_skill c /\ ev_modifier e = ad_modifier c
                           /\ ev_targets e = ad_targets c) l evs.
Proof.
  intros N E. apply api_adds_spec in E as (P & _). cbn in P.
  exists (stored_events 0 l). split; [exact P|]. split; [exact (stored_events_ids l 0 N)|].
  apply stored_events_forall2.
Qed.
