(** * Facts about rotations that go on *)

From Coq Require Import ZArith QArith List String Bool Lia Permutation Sorted.
From Verif Require Import Base Float Heap Strings Types Lookup StatusEffect JobResource Combo
  Channeling Stats Library Events Rotation BaseFacts FloatFacts HeapFacts SpecQueue EventsFacts SpecPlay PlayFacts
  LogFacts SpecTimeline TimelineFacts SpecDots DotFacts RunFacts SpecRun RunProps ApiFacts SpecLater.
Import ListNotations.
Open Scope Z_scope.

(** ** Logs of longer rotations *)

Lemma seq_log_app st l' : forall l tk t g log' r,
  seq_log st tk t g (l ++ l') = Ok (log', r) ->
  exists log more r0, seq_log st tk t g l = Ok (log, r0) /\ log' = (log ++ more)%list.
Proof.
  induction l as [|x l IH]; intros tk t g log' r H; cbn [seq_log app] in *.
  - exists [], log', (tk, t, g). split; reflexivity.
  - inv_bind H. destruct a as [[[p tk1] t1] g1]. inv_bind H. destruct a as [lg r1]. injection H as <- <-.
    destruct (IH _ _ _ _ _ E0) as (log & more & r0 & E1 & ->). exists (p :: log), more, r0.
    rewrite E. cbn [bind]. rewrite E1. split; reflexivity.
Qed.
Lemma timed_log_app st l' : forall l tk log' r,
  timed_log st tk (l ++ l') = Ok (log', r) ->
  exists log more r0, timed_log st tk l = Ok (log, r0) /\ log' = (log ++ more)%list.
Proof.
  induction l as [|x l IH]; intros tk log' r H; cbn [timed_log app] in *.
  - exists [], log', tk. split; reflexivity.
  - inv_bind H. destruct a as [p tk1]. inv_bind H. destruct a as [lg r1]. injection H as <- <-.
    destruct (IH _ _ _ E0) as (log & more & r0 & E1 & ->). exists (p :: log), more, r0.
    rewrite E. cbn [bind]. rewrite E1. split; reflexivity.
Qed.

(** ** What a continuation changes *)

Record goes_on (b b' : builder) (ms : list seq_item) (mt : list timed) : Prop := {
  go_settings : same_settings b b';
  go_dots : b_dots b' = b_dots b;
  go_stamps : b_stamps b' = b_stamps b;
  go_seq : b_sequence b' = (b_sequence b ++ ms)%list;
  go_timed : b_timed b' = (b_timed b ++ mt)%list;
  go_sorted : StronglySorted (fun x y => tm_time x < tm_time y) mt;
  go_later : forall x y, In x (b_timed b) -> In y mt -> tm_time x < tm_time y;
  go_targets : forall t, In t (b_targets b) -> In t (b_targets b')
}.

Lemma sorted_snoc {A} (R : A -> A -> Prop) l x :
  StronglySorted R l -> (forall y, In y l -> R y x) -> StronglySorted R (l ++ [x]).
Proof.
  induction 1 as [|a l S IH F]; intros H; cbn; [repeat constructor|]. constructor.
  - apply IH. intros y Hy. apply H. right; exact Hy.
  - apply Forall_app. split; [exact F|]. constructor; [apply H; left; reflexivity | constructor].
Qed.
Lemma process_targets_more b targets t : In t (b_targets b) -> In t (snd (process_targets b targets)).
Proof. intros H. unfold process_targets. cbn [snd]. apply sadd_all_in. right; exact H. Qed.

Lemma continued_goes b b' : continued b b' -> exists ms mt, goes_on b b' ms mt.
Proof.
  induction 1 as [|b1 name m job n targets b2 C (ms & mt & IH) H|b1 t name m job targets b2 C (ms & mt & IH) L H].
  - exists [], []. constructor; try reflexivity; try (rewrite app_nil_r; reflexivity); [repeat split|constructor|intros x y _ []|auto].
  - apply add_next_fields in H as (s & j & tg & _ & -> & _). destruct IH as [(S1 & S2 & S3 & S4 & S5 & S6 & S7 & S8 & S9)].
    eexists (ms ++ _)%list, mt. constructor; cbn [b_stats b_library b_snap_dots b_autos b_ignore_trailing b_fight_start b_windows b_default_target b_priority b_timed b_sequence b_dots b_press b_queue b_stamps b_targets]; try assumption.
    + repeat split; assumption.
    + rewrite go_seq0, <- app_assoc. reflexivity.
    + intros u Hu. apply process_targets_more. auto.
  - apply add_fields in H as (s & j & tg & _ & -> & _). destruct IH as [(S1 & S2 & S3 & S4 & S5 & S6 & S7 & S8 & S9)].
    specialize (L _ (qtrunc_truncates _)). rewrite go_timed0 in L.
    eexists ms, (mt ++ [_])%list. constructor; cbn [b_stats b_library b_snap_dots b_autos b_ignore_trailing b_fight_start b_windows b_default_target b_priority b_timed b_sequence b_dots b_press b_queue b_stamps b_targets]; try assumption.
    + repeat split; assumption.
    + rewrite go_timed0, <- app_assoc. reflexivity.
    + apply sorted_snoc; [exact go_sorted0|]. intros y Hy. cbn [tm_time]. apply L, in_or_app. right; exact Hy.
    + intros x y Hx Hy. apply in_app_or in Hy as [Hy|[<-|[]]]; [auto|]. cbn [tm_time]. apply L, in_or_app. left; exact Hx.
    + intros u Hu. apply process_targets_more. auto.
Qed.
Lemma continued_reachable b b' : continued b b' -> reachable b -> reachable b'.
Proof. induction 1; intros R; [exact R | eapply reach_add_next; [|eassumption]; auto | eapply reach_add; [|eassumption]; auto]. Qed.
Lemma continued_built b b' : continued b b' -> built b -> built b'.
Proof. induction 1; intros R; [exact R | eapply built_add_next; [|eassumption]; auto | eapply built_add; [|eassumption]; auto]. Qed.

(** ** The order of timed presses *)

Lemma sorted_le_lt l :
  NoDup (map tm_time l) -> StronglySorted timed_le l -> StronglySorted (fun x y => tm_time x < tm_time y) l.
Proof.
  intros N S. induction S as [|x l S IH F]; [constructor|]. cbn in N. inversion N as [|? ? N1 N2]; subst. constructor; [auto|].
  apply Forall_forall. intros y Hy. rewrite Forall_forall in F. specialize (F y Hy). unfold timed_le in F.
  assert (tm_time x <> tm_time y) by (intros E; apply N1; rewrite E; apply in_map, Hy). lia.
Qed.
Lemma sorted_app {A} (R : A -> A -> Prop) l m :
  StronglySorted R l -> StronglySorted R m -> (forall x y, In x l -> In y m -> R x y) -> StronglySorted R (l ++ m).
Proof.
  induction 1 as [|a l S IH F]; intros Sm H; cbn; [exact Sm|]. constructor.
  - apply IH; [exact Sm|]. intros x y Hx Hy. apply H; [right; exact Hx | exact Hy].
  - apply Forall_app. split; [exact F|]. apply Forall_forall. intros y Hy. apply H; [left; reflexivity | exact Hy].
Qed.
(** Two sorted lists with the same elements. *)
Lemma sorted_unique {A} (k : A -> Z) l m :
  StronglySorted (fun x y => k x < k y) l -> StronglySorted (fun x y => k x < k y) m ->
  (forall x, In x l <-> In x m) -> l = m.
Proof.
  intros S; revert m. induction S as [|a l S IH F]; intros m Sm I.
  - destruct m as [|b m]; [reflexivity|]. destruct (proj2 (I b) (or_introl eq_refl)).
  - inversion Sm as [|b m' Sm' Fm]; subst; [destruct (proj1 (I a) (or_introl eq_refl))|].
    rewrite Forall_forall in F, Fm.
    assert (a = b).
    { destruct (proj1 (I a) (or_introl eq_refl)) as [E|H]; [auto|]. destruct (proj2 (I b) (or_introl eq_refl)) as [E|H']; [auto|].
      specialize (F b H'). specialize (Fm a H). lia. }
    subst b. f_equal. apply IH; [exact Sm'|]. intros x. split; intros H.
    + destruct (proj1 (I x) (or_intror H)) as [<-|G]; [specialize (F a H); lia | exact G].
    + destruct (proj2 (I x) (or_intror H)) as [<-|G]; [specialize (Fm a H); lia | exact G].
Qed.
Lemma lt_nodup {A} (k : A -> Z) l : StronglySorted (fun x y => k x < k y) l -> NoDup (map k l).
Proof.
  induction 1 as [|x l S IH F]; cbn; constructor; [|exact IH]. intros H. apply in_map_iff in H as (y & E & Hy).
  rewrite Forall_forall in F. specialize (F y Hy). lia.
Qed.
Lemma order_app b b' ms mt o o' :
  goes_on b b' ms mt -> distinct_times b -> timed_order (b_timed b) = Ok o -> timed_order (b_timed b') = Ok o' -> o' = (o ++ mt)%list.
Proof.
  intros G D H H'. apply timed_order_spec in H as (P & S). apply timed_order_spec in H' as (P' & S').
  rewrite (go_timed _ _ _ _ G) in P'.
  assert (So : StronglySorted (fun x y => tm_time x < tm_time y) (o ++ mt)).
  { apply sorted_app; [|exact (go_sorted _ _ _ _ G)|].
    - apply sorted_le_lt; [|exact S]. eapply Permutation_NoDup; [apply Permutation_map, P | exact D].
    - intros x y Hx Hy. apply (go_later _ _ _ _ G); [|exact Hy]. eapply Permutation_in; [symmetry; exact P | exact Hx]. }
  assert (Pm : Permutation (o ++ mt) o') by (rewrite <- P'; apply Permutation_app_tail; symmetry; exact P).
  apply (sorted_unique tm_time); [|exact So|].
  - apply sorted_le_lt; [|exact S']. eapply Permutation_NoDup; [apply Permutation_map, Pm | apply lt_nodup, So].
  - intros x. split; apply Permutation_in; [symmetry|]; exact Pm.
Qed.

(** ** The logs go on *)

Lemma logs_go_on b b' ms mt slog tlog slog' tlog' :
  goes_on b b' ms mt -> distinct_times b ->
  sequence_log b = Ok slog -> timeds_log b = Ok tlog ->
  sequence_log b' = Ok slog' -> timeds_log b' = Ok tlog' ->
  exists nsq nt, slog' = (slog ++ nsq)%list /\ tlog' = (tlog ++ nt)%list.
Proof.
  intros G D H1 H2 H3 H4. pose proof (go_settings _ _ _ _ G) as (S1 & S2 & _ & _ & _ & S6 & _ & _ & S9).
  unfold sequence_log, timeds_log in *. rewrite S1, S2, S9 in *. rewrite S6, (go_seq _ _ _ _ G) in H3.
  inv_bind H3. rewrite E in *. cbn [bind] in *.
  inv_bind H3. destruct a0 as [l1 r1]. injection H3 as <-.
  apply seq_log_app in E0 as (lg & more & r0 & E1 & ->). rewrite E1 in H1. cbn [bind] in H1. injection H1 as <-.
  inv_bind H4. rename a0 into o'. rename E0 into O'. inv_bind H2. rename a0 into o. rename E0 into O.
  rewrite (order_app _ _ _ _ _ _ G D O O') in H4.
  inv_bind H4. destruct a0 as [l2 r2]. injection H4 as <-.
  apply timed_log_app in E0 as (lg2 & more2 & r3 & E2 & ->). rewrite E2 in H2. cbn [bind] in H2. injection H2 as <-.
  exists more, more2. split; reflexivity.
Qed.

(** ** Presses *)

Lemma presses_go_on b b' r r' :
  reachable b -> distinct_times b -> continued b b' -> get_skill_timing b = Ok r -> get_skill_timing b' = Ok r' ->
  exists slog tlog nsq nt d d',
    rotation_played b slog tlog /\ rotation_played b' (slog ++ nsq) (tlog ++ nt)
    /\ shows_presses b r (slog ++ tlog) d
    /\ shows_presses b' r' ((slog ++ nsq) ++ (tlog ++ nt)) d'
    /\ (b_fight_start b <> None -> d = 0 /\ d' = 0).
Proof.
  intros R D C H H'. destruct (continued_goes b b' C) as (ms & mt & G).
  apply run_logs in H; [|apply reachable_dots, R].
  apply run_logs in H'; [|apply reachable_dots; eapply continued_reachable; eassumption].
  destruct H as (slog & tlog & q2 & autos & d & H). cbv zeta in H.
  destruct H' as (slog' & tlog' & q2' & autos' & d' & H'). cbv zeta in H'.
  destruct H as ((L1 & L2) & P & _ & _ & _ & M & _ & _ & Sh & _).
  destruct H' as ((L1' & L2') & P' & _ & _ & _ & M' & _ & _ & Sh' & _).
  destruct (logs_go_on b b' ms mt slog tlog slog' tlog' G D L1 L2 L1' L2') as (nsq & nt & -> & ->).
  exists slog, tlog, nsq, nt, d, d'. repeat (split; [assumption|]).
  pose proof (go_settings _ _ _ _ G) as (_ & _ & _ & _ & _ & S6 & _). rewrite S6 in M'.
  intros N. unfold moves in *. destruct (b_fight_start b); [auto | congruence].
Qed.

Lemma press_earlier_none l : map (press_earlier 0) l = l.
Proof. apply map_id_ext. apply press_earlier_0. Qed.

Lemma presses_stay b b' r r' :
  reachable b -> distinct_times b -> continued b b' -> b_fight_start b <> None ->
  get_skill_timing b = Ok r -> get_skill_timing b' = Ok r' ->
  exists new, Permutation (get_button_press_timing r') (get_button_press_timing r ++ new).
Proof.
  intros R D C N H H'. destruct (presses_go_on b b' r r' R D C H H') as (slog & tlog & nsq & nt & d & d' & _ & _ & S & S' & Z0).
  destruct (Z0 N) as (-> & ->). destruct S as (_ & S & _). destruct S' as (_ & S' & _).
  destruct (continued_goes b b' C) as (ms & mt & G). pose proof (go_settings _ _ _ _ G) as (S1 & _). rewrite S1 in S'.
  rewrite press_earlier_none in *. exists (map (press_record (st_job (b_stats b))) (nsq ++ nt)).
  rewrite <- S', <- S, <- map_app. apply Permutation_map.
  rewrite <- !app_assoc. apply Permutation_app_head. rewrite !app_assoc. apply Permutation_app_tail. apply Permutation_app_comm.
Qed.

Lemma forall2_length {A B} (R : A -> B -> Prop) l m : Forall2 R l m -> List.length l = List.length m.
Proof. induction 1; cbn; congruence. Qed.
Lemma sequence_stays b b' r r' :
  reachable b -> continued b b' -> b_timed b' = [] -> nonneg_locks b' -> b_fight_start b <> None ->
  get_skill_timing b = Ok r -> get_skill_timing b' = Ok r' ->
  exists new, get_button_press_timing r' = (get_button_press_timing r ++ new)%list
    /\ List.length new = (List.length (b_sequence b') - List.length (b_sequence b))%nat
    /\ forall p q, In p (get_button_press_timing r) -> In q new -> pr_time p <= pr_time q.
Proof.
  intros R C Nt L N H H'. destruct (continued_goes b b' C) as (ms & mt & G).
  assert (Nt0 : b_timed b = []) by (pose proof (go_timed _ _ _ _ G) as E; rewrite Nt in E; destruct (b_timed b); [reflexivity | discriminate]).
  assert (D : distinct_times b) by (unfold distinct_times; rewrite Nt0; constructor).
  destruct (presses_go_on b b' r r' R D C H H') as (slog & tlog & nsq & nt & d & d' & P & P' & S & S' & Z0).
  destruct (Z0 N) as (-> & ->). clear Z0.
  assert (T0 : forall c sl tl, rotation_played c sl tl -> b_timed c = [] -> tl = []).
  { intros c sl tl (_ & _ & (o & Po & _ & F) & _) E. rewrite E in Po. apply Permutation_nil in Po. subst o. inversion F; reflexivity. }
  pose proof (T0 _ _ _ P Nt0) as ->. pose proof (T0 _ _ _ P' Nt) as E. apply app_eq_nil in E as (_ & ->). clear T0.
  cbn [app] in *. rewrite !app_nil_r in *.
  assert (So : StronglySorted (fun p q => pl_time p <= pl_time q) (slog ++ nsq)).
  { pose proof (played_locks _ _ _ P' L) as Lk. destruct P' as (P1 & P2 & P3 & P4 & P5 & P6). rewrite app_nil_r in P5.
    eapply scheduled_ready; [exact P2 | exact P5 | exact Lk]. }
  pose proof (go_settings _ _ _ _ G) as (S1 & _). unfold shows_presses in *. rewrite S1 in S'. rewrite press_earlier_none in *.
  assert (Ex : forall log out, StronglySorted (fun p q => pl_time p <= pl_time q) log ->
            in_time_order (map (press_record (st_job (b_stats b))) log) out -> out = map (press_record (st_job (b_stats b))) log).
  { intros log out Sl I. eapply in_time_order_sorted; [exact I|]. clear - Sl. induction Sl as [|x l S IH F]; cbn; constructor; [exact IH|].
    apply Forall_map. exact F. }
  assert (So1 : StronglySorted (fun p q => pl_time p <= pl_time q) slog).
  { clear - So. induction slog as [|x l IH]; [constructor|]. cbn in So. inversion So as [|? ? A B]; subst. constructor; [auto|].
    apply Forall_app in B. apply B. }
  rewrite (Ex _ _ So1 S), (Ex _ _ So S'). rewrite map_app. eexists. split; [reflexivity|]. split.
  - rewrite map_length. destruct P as (P1 & _). destruct P' as (P1' & _). apply forall2_length in P1, P1'. rewrite app_length in P1'. lia.
  - intros p q Hp Hq. apply in_map_iff in Hp as (x & <- & Hx). apply in_map_iff in Hq as (y & <- & Hy). cbn.
    clear - So Hx Hy. induction slog as [|z l IH]; [destruct Hx|]. cbn in So. inversion So as [|? ? A B]; subst.
    destruct Hx as [->|Hx]; [|auto]. rewrite Forall_forall in B. apply B, in_or_app. right; exact Hy.
Qed.

(** ** Downtime *)

Lemma downtimed_filter w (f : event -> bool) l l' :
  (forall e tg, f (with_targets e tg) = f e) -> downtimed w l l' -> downtimed w (filter f l) (filter f l').
Proof.
  intros Hf. induction 1 as [|e l l' K D IH|e tg l l' K N D IH]; cbn [filter]; [constructor| |].
  - destruct (f e); [apply dt_gone; assumption | exact IH].
  - rewrite Hf. destruct (f e); [apply dt_stays; assumption | exact IH].
Qed.
Lemma downtimed_app_inv w l m : forall n, downtimed w (l ++ m) n ->
  exists n1 n2, n = (n1 ++ n2)%list /\ downtimed w l n1 /\ downtimed w m n2.
Proof.
  induction l as [|e l IH]; intros n D; cbn [app] in D.
  - exists [], n. split; [reflexivity|]. split; [constructor | exact D].
  - inversion D as [|? ? ? K D1|? tg ? n' K N D1]; subst; destruct (IH _ D1) as (n1 & n2 & -> & A & B).
    + exists n1, n2. split; [reflexivity|]. split; [constructor; assumption | exact B].
    + exists (with_targets e tg :: n1), n2. split; [reflexivity|]. split; [constructor; assumption | exact B].
Qed.
Lemma kept_ext {A} (P Q : A -> Prop) l l' : (forall x, In x l -> (P x <-> Q x)) -> kept P l l' -> kept Q l l'.
Proof.
  intros H K. induction K as [|x l l' Px K IH|x l l' Px K IH]; [constructor| |].
  - apply kept_yes; [apply H; [left; reflexivity | exact Px]|]. apply IH. intros y Hy. apply H. right; exact Hy.
  - apply kept_no; [intros Qx; apply Px, H; [left; reflexivity | exact Qx]|]. apply IH. intros y Hy. apply H. right; exact Hy.
Qed.
Lemma kept_fun {A} (P : A -> Prop) l m m' : kept P l m -> kept P l m' -> m = m'.
Proof.
  intros K; revert m'. induction K as [|x l l' Px K IH|x l l' Px K IH]; intros m' K'; inversion K'; subst; try contradiction;
    [reflexivity | f_equal; auto | auto].
Qed.
Lemma downtimed_ext w w' l l' :
  (forall e t, In e l -> In t (ev_targets e) -> w t = w' t) -> downtimed w l l' -> downtimed w' l l'.
Proof.
  intros H D. induction D as [|e l l' K D IH|e tg l l' K N D IH]; [constructor| |].
  - apply dt_gone; [|apply IH; intros; eapply H; [right|]; eassumption]. eapply kept_ext; [|exact K].
    intros t Ht. unfold spared. rewrite (H e t (or_introl eq_refl) Ht). reflexivity.
  - apply dt_stays; [| exact N |apply IH; intros; eapply H; [right|]; eassumption]. eapply kept_ext; [|exact K].
    intros t Ht. unfold spared. rewrite (H e t (or_introl eq_refl) Ht). reflexivity.
Qed.
Lemma downtimed_fun w l m m' : downtimed w l m -> downtimed w l m' -> m = m'.
Proof.
  intros D; revert m'. induction D as [|e l l' K D IH|e tg l l' K N D IH]; intros m' D'; inversion D'; subst.
  - reflexivity.
  - auto.
  - exfalso. match goal with X : kept _ _ _ |- _ => pose proof (kept_fun _ _ _ _ K X) end. congruence.
  - exfalso. match goal with X : kept _ _ [] |- _ => pose proof (kept_fun _ _ _ _ K X) end. congruence.
  - match goal with X : kept _ _ ?t, Y : kept _ _ ?t' |- with_targets _ ?t :: _ = with_targets _ ?t' :: _ => pose proof (kept_fun _ _ _ _ X Y) end.
    subst. f_equal. auto.
Qed.

(** ** Which targets a rotation has *)

Lemma played_targets b slog tlog p t :
  built b -> rotation_played b slog tlog -> In p (slog ++ tlog) -> In t (pl_targets p) -> In t (b_targets b).
Proof.
  intros B (C & _ & (o & P & _ & T) & _) H Ht. destruct (built_targets b B) as (T1 & T2). apply in_app_or in H as [H|H].
  - destruct (Forall2_in_r _ _ _ _ C H) as (x & Hx & (_ & _ & _ & E)). rewrite E in Ht. eapply T1; eassumption.
  - destruct (Forall2_in_r _ _ _ _ T H) as (x & Hx & (_ & _ & _ & _ & E)). rewrite E in Ht. eapply T2; [|exact Ht].
    eapply Permutation_in; [symmetry; exact P | exact Hx].
Qed.
Lemma numbered_in {A B} (f : Z -> A -> list B) l : forall k y, In y (numbered f k l) -> exists j a, In a l /\ In y (f j a).
Proof.
  induction l as [|a l IH]; intros k y H; [destruct H|]. cbn in H. apply in_app_or in H as [H|H].
  - exists k, a. split; [left; reflexivity | exact H].
  - destruct (IH _ _ H) as (j & a' & H1 & H2). exists j, a'. split; [right; exact H1 | exact H2].
Qed.
Lemma press_entry_targets p c t : In c (press_entries p) -> In t (ad_targets c) -> In t (pl_targets p).
Proof.
  intros [<-|H] Ht; [exact Ht|]. apply numbered_in in H as (j & fu & _ & H). unfold follow_up_entries in H.
  destruct (fu_dot fu); [destruct H|]. destruct H as [<-|[]]. cbn in Ht. destruct (fu_primary_only fu); [|exact Ht].
  destruct (pl_targets p); [destruct Ht|]. destruct Ht as [<-|[]]. left; reflexivity.
Qed.
Lemma press_dots_targets p x : In x (press_dots p) -> In (fst (fst x)) (pl_targets p) /\ app_time (snd x) = pl_application p
  /\ exists fu, In fu (pl_follow_ups p) /\ snd (fst x) = fu.
Proof.
  intros H. apply numbered_in in H as (j & fu & I & H). unfold follow_up_dots in H. destruct (fu_dot fu); [|destruct H].
  apply in_map_iff in H as (t & <- & Ht). cbn. repeat split; [exact Ht|]. exists fu. auto.
Qed.
Lemma windows_go_on b b' ms mt t : goes_on b b' ms mt -> In t (b_targets b) -> windows_of b' t = windows_of b t.
Proof.
  intros G H. pose proof (go_settings _ _ _ _ G) as (_ & _ & _ & _ & _ & _ & S7 & _). unfold windows_of. rewrite S7.
  destruct (b_windows b); [|reflexivity]. destruct (in_dec String.string_dec t (b_targets b)) as [?|?]; [|contradiction].
  destruct (in_dec String.string_dec t (b_targets b')) as [?|X]; [reflexivity|]. destruct X. apply (go_targets _ _ _ _ G), H.
Qed.
Lemma entry_targets c : ev_targets (entry c) = ad_targets c.
Proof. reflexivity. Qed.

(** ** Ticks *)

Inductive inserted {A} (P : A -> Prop) : list A -> list A -> Prop :=
| ins_nil : inserted P [] []
| ins_old x l l' : inserted P l l' -> inserted P (x :: l) (x :: l')
| ins_new x l l' : P x -> inserted P l l' -> inserted P l (x :: l').

Lemma inserted_refl {A} (P : A -> Prop) l : inserted P l l.
Proof. induction l; constructor; assumption. Qed.
Lemma inserted_all {A} (P : A -> Prop) l : Forall P l -> inserted P [] l.
Proof. induction 1; [constructor | apply ins_new; assumption]. Qed.
Lemma inserted_app {A} (P : A -> Prop) l l' m m' : inserted P l l' -> inserted P m m' -> inserted P (l ++ m) (l' ++ m').
Proof. induction 1; intros; cbn; [assumption | apply ins_old; auto | apply ins_new; auto]. Qed.
Lemma inserted_filter {A} (P : A -> Prop) f l l' : inserted P l l' -> inserted P (filter f l) (filter f l').
Proof. induction 1; cbn; [constructor | destruct (f x); [apply ins_old|]; assumption | destruct (f x); [apply ins_new|]; assumption]. Qed.
Lemma inserted_map {A B} (P : A -> Prop) (Q : B -> Prop) (f : A -> B) l l' :
  (forall x, P x -> Q (f x)) -> inserted P l l' -> inserted Q (map f l) (map f l').
Proof. intros H. induction 1; cbn; [constructor | apply ins_old; assumption | apply ins_new; auto]. Qed.
Lemma inserted_in {A} (P : A -> Prop) l l' x : inserted P l l' -> In x l -> In x l'.
Proof. induction 1; intros H'; [exact H' | destruct H' as [<-|H']; [left; reflexivity | right; auto] | right; auto]. Qed.

Lemma inserted_index {A} (P : A -> Prop) l l' : inserted P l l' ->
  exists f : nat -> nat, (forall i j, (i < j)%nat -> (f i < f j)%nat)
    /\ (forall i, nth_error l' (f i) = nth_error l i)
    /\ (forall j x, nth_error l' j = Some x -> P x \/ exists i, j = f i).
Proof.
  induction 1 as [|x l l' I (f & F1 & F2 & F3)|x l l' Px I (f & F1 & F2 & F3)].
  - exists (fun i => i). repeat split; [auto|]. intros [|j] x; discriminate.
  - exists (fun i => match i with O => O | S i => S (f i) end). split; [|split].
    + intros [|i] [|j] H; [lia | lia | lia |]. apply -> Nat.succ_lt_mono. apply F1. lia.
    + intros [|i]; [reflexivity | apply F2].
    + intros [|j] y Hy; [right; exists O; reflexivity|]. destruct (F3 j y Hy) as [?|(i & ->)]; [left; assumption | right; exists (S i); reflexivity].
  - exists (fun i => S (f i)). split; [|split].
    + intros i j H. apply -> Nat.succ_lt_mono. apply F1, H.
    + intros i. apply F2.
    + intros [|j] y Hy; [left; injection Hy as <-; exact Px|]. destruct (F3 j y Hy) as [?|(i & ->)]; [left; assumption | right; exists i; reflexivity].
Qed.

Lemma ticks_transfer first dur T h h' e t :
  inserted (fun x => T <= app_time x) h h' -> (forall x, In x h' -> app_time x <= first (app_time x)) -> t < T ->
  (exists i, nth_error h i = Some e /\ ticks_at first dur h i t) <-> (exists i, nth_error h' i = Some e /\ ticks_at first dur h' i t).
Proof.
  intros I Hf Ht. destruct (inserted_index _ _ _ I) as (f & F1 & F2 & F3).
  assert (F1' : forall i j, (f i < f j)%nat -> (i < j)%nat).
  { intros i j H. destruct (Nat.lt_trichotomy i j) as [?|[->|H']]; [assumption | lia | apply F1 in H'; lia]. }
  split; intros (i & Hi & e0 & E0 & K & Du & Su); rewrite Hi in E0; injection E0 as <-.
  - exists (f i). split; [rewrite F2; exact Hi|]. exists e. split; [rewrite F2; exact Hi|]. split; [exact K|]. split; [exact Du|].
    intros j e' Hj S. destruct (F3 j e' Hj) as [Pe|(j0 & ->)]; [lia|]. rewrite F2 in Hj. apply (Su j0 e' Hj).
    destruct S as [S|(S1 & S2)]; [left; exact S | right; split; [exact S1 | apply F1', S2]].
  - destruct (F3 i e Hi) as [Pe|(i0 & ->)].
    + exfalso. destruct K as (j & Hj & ->). specialize (Hf e (nth_error_In _ _ Hi)). lia.
    + rewrite F2 in Hi. exists i0. split; [exact Hi|]. exists e. split; [exact Hi|]. split; [exact K|]. split; [exact Du|].
      intros j e' Hj S. apply (Su (f j) e'); [rewrite F2; exact Hj|].
      destruct S as [S|(S1 & S2)]; [left; exact S | right; split; [exact S1 | apply F1, S2]].
Qed.

Lemma sorted_filter {A} (R : A -> A -> Prop) f l : StronglySorted R l -> StronglySorted R (filter f l).
Proof.
  induction 1 as [|x l S IH F]; cbn; [constructor|]. destruct (f x); [|exact IH]. constructor; [exact IH|].
  apply Forall_forall. intros y Hy. apply filter_In in Hy as (Hy & _). rewrite Forall_forall in F. auto.
Qed.
Definition soon {A} (T : Z) (l : list (A * Z)) : list (A * Z) := filter (fun x => snd x <? T) l.
Lemma ticks_before first dur T h h' l l' :
  inserted (fun x => T <= app_time x) h h' -> (forall x, In x h' -> app_time x <= first (app_time x)) ->
  is_ticks first None dur h l -> is_ticks first None dur h' l' -> soon T l = soon T l'.
Proof.
  intros I Hf (S & E) (S' & E'). apply (sorted_unique snd); [apply sorted_filter, S | apply sorted_filter, S'|].
  assert (N : forall t, ~ trailing None t) by (intros t (x & X & _); discriminate).
  intros [e t]. unfold soon. rewrite !filter_In. cbn [snd]. rewrite Z.ltb_lt, E, E'.
  split; intros ((H & _) & Ht); (split; [|exact Ht]); (split; [|apply N]).
  - exact (proj1 (ticks_transfer first dur T h h' e t I Hf Ht) H).
  - exact (proj2 (ticks_transfer first dur T h h' e t I Hf Ht) H).
Qed.
Definition call_time (c : add_call) : Z := match ad_secondary c with Some a => a | None => ad_primary c end.
Definition calls_before (T : Z) (l : list add_call) : list add_call := filter (fun c => call_time c <? T) l.
Lemma tick_entries_before fu tg T l : forall n, StronglySorted (fun x y : dot_entry * Z => snd x < snd y) l ->
  calls_before T (tick_entries fu tg n l) = tick_entries fu tg n (soon T l).
Proof.
  induction l as [|[e t] l IH]; intros n S; [reflexivity|]. inversion S as [|? ? S1 F]; subst. cbn [tick_entries calls_before filter soon snd].
  change (call_time (tick_entry fu tg n e t)) with t. destruct (Z.ltb_spec t T) as [L|L].
  - cbn [tick_entries]. f_equal. apply IH, S1.
  - assert (N : soon T l = []).
    { rewrite Forall_forall in F. unfold soon. clear - F L. induction l as [|x l IH]; [reflexivity|]. cbn.
      pose proof (F x (or_introl eq_refl)) as Fx. cbn in Fx. destruct (Z.ltb_spec (snd x) T); [lia|]. apply IH. intros y Hy. apply F. right; exact Hy. }
    fold (soon T l). fold (calls_before T (tick_entries fu tg (n + 1) l)). rewrite (IH (n + 1) S1), N. reflexivity.
Qed.

Lemma calls_before_app T l m : calls_before T (l ++ m) = (calls_before T l ++ calls_before T m)%list.
Proof. apply filter_app. Qed.
Lemma all_ticks_perm first last l ks ks' : Permutation ks ks' ->
  forall cs, all_ticks first last l ks cs -> exists cs', all_ticks first last l ks' cs' /\ Permutation cs cs'.
Proof.
  induction 1 as [|[tg fu] ks ks' P IH|[tg fu] [tg' fu'] ks|ks ks' ks'' P1 IH1 P2 IH2]; intros cs A.
  - exists cs. auto.
  - inversion A as [|? ? dur ticks ? cs1 D1 D2 D3]; subst. destruct (IH _ D3) as (cs' & A' & P').
    eexists. split; [eapply at_cons; eassumption | apply Permutation_app_head, P'].
  - inversion A as [|? ? dur ticks ? cs1 D1 D2 D3]; subst. inversion D3 as [|? ? dur' ticks' ? cs2 D1' D2' D3']; subst.
    eexists. split; [eapply at_cons; [eassumption|eassumption|eapply at_cons; eassumption]|].
    rewrite !app_assoc. apply Permutation_app_tail, Permutation_app_comm.
  - destruct (IH1 _ A) as (c1 & A1 & Q1). destruct (IH2 _ A1) as (c2 & A2 & Q2). exists c2. split; [exact A2 | rewrite Q1; exact Q2].
Qed.
Lemma all_ticks_app first last l ks ks' : forall cs, all_ticks first last l (ks ++ ks') cs ->
  exists c1 c2, cs = (c1 ++ c2)%list /\ all_ticks first last l ks c1 /\ all_ticks first last l ks' c2.
Proof.
  induction ks as [|k ks IH]; intros cs A; cbn [app] in A.
  - exists [], cs. split; [reflexivity|]. split; [constructor | exact A].
  - inversion A as [|? ? dur ticks ? cs1 D1 D2 D3]; subst. destruct (IH _ D3) as (c1 & c2 & -> & A1 & A2).
    eexists _, c2. split; [rewrite app_assoc; reflexivity|]. split; [eapply at_cons; eassumption | exact A2].
Qed.

Section Ticks.
  Variables (first : Z -> Z) (T : Z) (l l' : list dot_application).
  Hypothesis Ins : inserted (fun x => T <= app_time (snd x)) l l'.
  Hypothesis Hf : forall x, In x l' -> app_time (snd x) <= first (app_time (snd x)).

  Lemma history_inserted tg fu : inserted (fun x => T <= app_time x) (history tg fu l) (history tg fu l').
  Proof. unfold history. eapply inserted_map; [|apply inserted_filter, Ins]. intros x H; exact H. Qed.
  Lemma history_first tg fu x : In x (history tg fu l') -> app_time x <= first (app_time x).
  Proof. unfold history. intros H. apply in_map_iff in H as (y & <- & H). apply filter_In in H as (H & _). auto. Qed.

  Lemma all_ticks_same ks : forall cs cs', all_ticks first None l ks cs -> all_ticks first None l' ks cs' ->
    calls_before T cs = calls_before T cs'.
  Proof.
    induction ks as [|k ks IH]; intros cs cs' A A'; inversion A as [|tg fu dur ticks ? c1 D1 D2 D3]; subst; [inversion A'; reflexivity|].
    inversion A' as [|? ? dur' ticks' ? c1' D1' D2' D3']; subst. rewrite D1 in D1'. injection D1' as <-.
    rewrite !calls_before_app, (IH _ _ D3 D3'). f_equal. rewrite !tick_entries_before by (apply D2 || apply D2'). f_equal.
    eapply ticks_before; [apply history_inserted | apply history_first | exact D2 | exact D2'].
  Qed.
  Lemma all_ticks_none ks : (forall k, In k ks -> history (fst k) (snd k) l = []) ->
    forall cs', all_ticks first None l' ks cs' -> calls_before T cs' = [].
  Proof.
    induction ks as [|k ks IH]; intros N cs' A'; inversion A' as [|tg fu dur ticks ? c1 D1 D2 D3]; subst; [reflexivity|].
    rewrite calls_before_app, (IH (fun k H => N k (or_intror H)) _ D3), app_nil_r, tick_entries_before by apply D2.
    rewrite <- (ticks_before first dur T (history tg fu l) (history tg fu l') []  ticks); [reflexivity | apply history_inserted | apply history_first | | exact D2].
    pose proof (N (tg, fu) (or_introl eq_refl)) as N0. cbn [fst snd] in N0. rewrite N0.
    split; [constructor|]. intros e t. split; [intros []|]. intros (([|i] & X & _) & _); discriminate.
  Qed.

  Lemma all_ticks_before ks ks' cs cs' :
    distinguishable l' -> effects_of l ks -> effects_of l' ks' ->
    all_ticks first None l ks cs -> all_ticks first None l' ks' cs' ->
    Permutation (calls_before T cs) (calls_before T cs').
  Proof.
    intros Di (N & E) (N' & E') A A'.
    assert (Sub : incl ks ks').
    { intros k Hk. apply E'. apply E in Hk. apply in_map_iff in Hk as (x & <- & Hx). apply in_map. eapply inserted_in; eassumption. }
    assert (exists more, Permutation ks' (ks ++ more)) as (more & P).
    { clear - N N' Sub. revert ks' N' Sub. induction ks as [|k ks IH]; intros ks' N' Sub; [exists ks'; reflexivity|].
      inversion N as [|? ? N1 N2]; subst. destruct (in_split k ks') as (a & b & ->); [apply Sub; left; reflexivity|].
      destruct (IH N2 (a ++ b)%list) as (more & P).
      - apply NoDup_remove in N'. apply N'.
      - intros y Hy. specialize (Sub y (or_intror Hy)). apply in_app_or in Sub as [H|[<-|H]]; [apply in_or_app; auto | contradiction | apply in_or_app; auto].
      - exists more. rewrite <- Permutation_middle. cbn. constructor. exact P. }
    destruct (all_ticks_perm _ _ _ _ _ P _ A') as (cs2 & A2 & P2). apply all_ticks_app in A2 as (c1 & c2 & -> & B1 & B2).
    assert (Pc : Permutation (calls_before T cs') (calls_before T (c1 ++ c2))).
    { clear - P2. unfold calls_before. induction P2 as [|x l l' P IH|x y l|l m n P IH P' IH']; cbn; [constructor | | |].
      - destruct (call_time x <? T); [constructor|]; exact IH.
      - destruct (call_time x <? T), (call_time y <? T); try constructor; try reflexivity.
      - rewrite IH; exact IH'. }
    rewrite Pc, calls_before_app, (all_ticks_same _ _ _ A B1), (all_ticks_none more) with (cs' := c2); [rewrite app_nil_r; reflexivity | | exact B2].
    intros [tg fu] Hk. cbn [fst snd]. unfold history.
    assert (X : In (tg, fu) ks') by (eapply Permutation_in; [symmetry; exact P | apply in_or_app; right; exact Hk]).
    apply E' in X. apply in_map_iff in X as (x & Ex & Hx).
    destruct (filter (fun z => String.eqb tg (fst (fst z)) && follow_up_eqb fu (snd (fst z))) l) as [|y ys] eqn:F; [reflexivity|]. exfalso.
    assert (Y : In y (filter (fun z => String.eqb tg (fst (fst z)) && follow_up_eqb fu (snd (fst z))) l)) by (rewrite F; left; reflexivity).
    apply filter_In in Y as (Y1 & Y2). apply andb_true_iff in Y2 as (Y2 & Y3). apply String.eqb_eq in Y2.
    assert (Yl : In y l') by (eapply inserted_in; eassumption).
    assert (Ef : fu = snd (fst y)).
    { pose proof (proj1 (Di x y Hx Yl)) as Dq. rewrite Ex in Dq. cbn [snd] in Dq. auto. }
    assert (Ik : In (tg, fu) ks) by (apply E; rewrite Y2, Ef; destruct y as [[? ?] ?]; cbn; apply (in_map fst _ _ Y1)).
    assert (Nd : NoDup (ks ++ more)) by (eapply Permutation_NoDup; eassumption).
    clear - Ik Hk Nd. induction ks as [|k ks IH]; [destruct Ik|]. cbn in Nd. inversion Nd as [|? ? M1 M2]; subst.
    destruct Ik as [->|Ik]; [apply M1, in_or_app; right; exact Hk | auto].
  Qed.
End Ticks.

(** ** The timeline *)

Lemma tick_entries_ticks fu tg l : forall n, Forall is_tick_entry (tick_entries fu tg n l).
Proof.
  induction l as [|[e t] l IH]; intros n; cbn; constructor; [|apply IH]. exists fu, tg, n, e, t. reflexivity.
Qed.
Lemma all_dot_calls_ticks server last d : Forall is_tick_entry (all_dot_calls server last d).
Proof.
  apply Forall_forall. intros c H. unfold all_dot_calls in H. apply in_flat_map in H as (kv & _ & H).
  apply in_flat_map in H as (x & _ & H). unfold dot_calls in H. destruct (fu_dot (fst x)); [|destruct H].
  revert H. apply Forall_forall, tick_entries_ticks.
Qed.
Lemma earlier_none l : map (earlier 0) l = l.
Proof. apply map_id_ext, earlier_0. Qed.

Lemma timeline_go_on b b' r r' :
  built b -> distinct_times b -> continued b b' -> b_fight_start b <> None ->
  get_skill_timing b = Ok r -> get_skill_timing b' = Ok r' ->
  exists slog tlog nsq nt old new bg bg',
    rotation_played b slog tlog /\ rotation_played b' (slog ++ nsq) (tlog ++ nt)
    /\ downtimed (windows_of b) (map entry (flat_map press_entries (slog ++ tlog))) old
    /\ downtimed (windows_of b') (map entry (flat_map press_entries (nsq ++ nt))) new
    /\ background (windows_of b) bg /\ background (windows_of b') bg'
    /\ Permutation (timeline r) (old ++ bg)
    /\ Permutation (timeline r') (old ++ new ++ bg').
Proof.
  intros B D C N H H'. destruct (continued_goes b b' C) as (ms & mt & G).
  apply run_logs in H; [|apply reachable_dots, built_reachable, B].
  apply run_logs in H'; [|apply reachable_dots, built_reachable; eapply continued_built; eassumption].
  destruct H as (slog & tlog & q2 & autos & d & H). cbv zeta in H.
  destruct H' as (slog' & tlog' & q2' & autos' & d' & H'). cbv zeta in H'.
  destruct H as ((L1 & L2) & P & _ & Au & _ & M & Ev & _).
  destruct H' as ((L1' & L2') & P' & _ & Au' & _ & M' & Ev' & _).
  destruct (logs_go_on b b' ms mt slog tlog slog' tlog' G D L1 L2 L1' L2') as (nsq & nt & -> & ->).
  pose proof (go_settings _ _ _ _ G) as (_ & _ & _ & _ & _ & S6 & _). rewrite S6 in M'.
  assert (d = 0 /\ d' = 0) as (-> & ->) by (unfold moves in *; destruct (b_fight_start b); [auto | congruence]).
  rewrite !earlier_none in *. destruct Ev as (evs & Dt & Pe). destruct Ev' as (evs' & Dt' & Pe').
  rewrite map_app in Dt. apply downtimed_app_inv in Dt as (old & bg & -> & Do & Db).
  rewrite map_app in Dt'. apply downtimed_app_inv in Dt' as (all & bg' & -> & Da & Db').
  assert (Pm : Permutation (map entry (flat_map press_entries ((slog ++ nsq) ++ tlog ++ nt)))
                 (map entry (flat_map press_entries (slog ++ tlog)) ++ map entry (flat_map press_entries (nsq ++ nt)))).
  { rewrite <- map_app, <- flat_map_app. apply Permutation_map. apply Permutation_flat_map.
    rewrite <- !app_assoc. apply Permutation_app_head. rewrite !app_assoc. apply Permutation_app_tail. apply Permutation_app_comm. }
  destruct (downtimed_perm _ _ _ Pm _ Da) as (all' & Da' & Pa). apply downtimed_app_inv in Da' as (old' & new & -> & Do' & Dn).
  assert (old' = old) as ->.
  { eapply downtimed_fun; [|exact Do]. eapply downtimed_ext; [|exact Do']. intros e t He Ht.
    apply in_map_iff in He as (c & <- & Hc). rewrite entry_targets in Ht. apply in_flat_map in Hc as (p & Hp & Hc).
    eapply windows_go_on; [exact G|]. eapply played_targets; [exact B | exact P | exact Hp|]. eapply press_entry_targets; eassumption. }
  exists slog, tlog, nsq, nt, old, new, bg, bg'. repeat (split; [assumption|]).
  split; [|split; [|split]].
  - eexists. split; [|exact Db]. apply Forall_app. split; [|eapply Forall_impl; [|exact Au]; intros c X; right; exact X].
    eapply Forall_impl; [|apply all_dot_calls_ticks]. intros c X; left; exact X.
  - eexists. split; [|exact Db']. apply Forall_app. split; [|eapply Forall_impl; [|exact Au']; intros c X; right; exact X].
    eapply Forall_impl; [|apply all_dot_calls_ticks]. intros c X; left; exact X.
  - exact Pe.
  - rewrite Pe', Pa, <- app_assoc. reflexivity.
Qed.

(** ** Before the first new press *)

Lemma all_ticks_targets first last l ks cs : all_ticks first last l ks cs ->
  forall c t, In c cs -> In t (ad_targets c) -> exists fu, In (t, fu) ks.
Proof.
  induction 1 as [|tg fu dur ticks ks cs D1 D2 D3 IH]; intros c t Hc Ht; [destruct Hc|]. apply in_app_or in Hc as [Hc|Hc].
  - assert (E : ad_targets c = [tg]).
    { clear - Hc. revert Hc. generalize 0. induction ticks as [|[e x] l IH]; intros n H; [destruct H|]. destruct H as [<-|H]; [reflexivity | eapply IH, H]. }
    rewrite E in Ht. destruct Ht as [<-|[]]. exists fu. left; reflexivity.
  - destruct (IH c t Hc Ht) as (f & Hf). exists f. right; exact Hf.
Qed.

Lemma perm_filter {A} (f : A -> bool) l m : Permutation l m -> Permutation (filter f l) (filter f m).
Proof.
  induction 1 as [|x l l' P IH|x y l|l m n P IH P' IH']; cbn; [constructor | | |].
  - destruct (f x); [constructor|]; exact IH.
  - destruct (f x), (f y); try constructor; reflexivity.
  - rewrite IH; exact IH'.
Qed.
Lemma before_entries T cs : before T (map entry cs) = map entry (calls_before T cs).
Proof.
  unfold before, calls_before. induction cs as [|c cs IH]; [reflexivity|]. cbn [map filter].
  replace (match ev_secondary (entry c) with Some a => a | None => ev_primary (entry c) end) with (call_time c)
    by (unfold call_time; cbn; destruct (ad_secondary c) as [t|]; [destruct (Z.eq_dec t (ad_primary c)); [assumption | reflexivity] | reflexivity]).
  destruct (call_time c <? T); cbn [map]; rewrite IH; reflexivity.
Qed.
Lemma before_perm T l m : Permutation l m -> Permutation (before T l) (before T m).
Proof. apply perm_filter. Qed.
Lemma calls_before_none T l : (forall c, In c l -> T <= call_time c) -> calls_before T l = [].
Proof.
  intros H. unfold calls_before. induction l as [|c l IH]; [reflexivity|]. cbn.
  destruct (Z.ltb_spec (call_time c) T) as [L|L]; [specialize (H c (or_introl eq_refl)); lia|]. apply IH. intros x Hx. apply H. right; exact Hx.
Qed.
Lemma press_entries_late b slog tlog p c :
  rotation_played b slog tlog -> nonneg_delays b -> nonneg_follow_ups b -> In p (slog ++ tlog) -> In c (press_entries p) ->
  pl_time p <= call_time c.
Proof.
  intros R N F Hp Hc. pose proof (press_order _ _ _ _ R N Hp) as O. destruct Hc as [<-|Hc]; [cbn; lia|].
  apply numbered_in in Hc as (k & fu & Hfu & Hc). unfold follow_up_entries in Hc. destruct (fu_dot fu); [destruct Hc|]. destruct Hc as [<-|[]].
  change (call_time (follow_up_entry p k fu)) with (pl_application p + fu_delay fu).
  assert (0 <= fu_delay fu); [|lia].
  assert (W : well_played (b_stats b) p) by (destruct R as (_ & _ & _ & W & _); rewrite Forall_forall in W; apply W, Hp).
  destruct W as (_ & _ & _ & Wf & _). eapply F; [eapply played_skill; eassumption | exact Wf | exact Hfu].
Qed.
Lemma log_distinguishable b slog tlog : rotation_played b slog tlog -> tells_apart b -> distinguishable (flat_map press_dots (slog ++ tlog)).
Proof.
  intros R A x y Hx Hy. pose proof (log_dots_dot (slog ++ tlog)) as Ld.
  assert (K : forall z, In z (flat_map press_dots (slog ++ tlog)) -> exists s m l, In s (skills_of b) /\ get_follow_up_skills s m = Ok l
               /\ In (snd (fst z)) l /\ fu_dot (snd (fst z)) <> None).
  { intros z Hz. pose proof (Ld z Hz) as Hd. apply in_flat_map in Hz as (p & Hp & Hz).
    apply press_dots_targets in Hz as (_ & _ & fu & Hfu & E). rewrite E in *.
    assert (W : well_played (b_stats b) p) by (destruct R as (_ & _ & _ & W & _); rewrite Forall_forall in W; apply W, Hp).
    destruct W as (_ & _ & _ & Wf & _). exists (pl_skill p), (pl_modifier p), (pl_follow_ups p).
    split; [eapply played_skill; eassumption|]. split; [exact Wf|]. split; [exact Hfu | exact Hd]. }
  destruct (K x Hx) as (s1 & m1 & l1 & A1 & A2 & A3 & A4). destruct (K y Hy) as (s2 & m2 & l2 & B1 & B2 & B3 & B4).
  exact (A s1 s2 m1 m2 l1 l2 _ _ A1 B1 A2 B2 A3 B3 A4 B4).
Qed.
Lemma dots_inserted T (log1 log2 new1 new2 : list played) :
  (forall p x, In p (new1 ++ new2) -> In x (press_dots p) -> T <= app_time (snd x)) ->
  inserted (fun x => T <= app_time (snd x)) (flat_map press_dots (log1 ++ log2))
    (flat_map press_dots ((log1 ++ new1) ++ log2 ++ new2)).
Proof.
  intros H. rewrite !flat_map_app.
  assert (N : forall l, incl l (new1 ++ new2) -> forall o, inserted (fun x => T <= app_time (snd x)) o (o ++ flat_map press_dots l)).
  { intros l I o. rewrite <- (app_nil_r o) at 1. apply inserted_app; [apply inserted_refl|]. apply inserted_all, Forall_forall.
    intros x Hx. apply in_flat_map in Hx as (p & Hp & Hx). eapply H; [apply I, Hp | exact Hx]. }
  apply inserted_app; apply N; intros p Hp; apply in_or_app; [left | right]; exact Hp.
Qed.

Lemma timeline_before b b' r r' T new :
  built b -> distinct_times b -> continued b b' -> b_fight_start b <> None -> b_autos b = false -> b_ignore_trailing b = false ->
  nonneg_delays b' -> nonneg_follow_ups b' -> tells_apart b' -> exact_ticks b' ->
  get_skill_timing b = Ok r -> get_skill_timing b' = Ok r' ->
  more_presses r r' new -> (forall p, In p new -> T <= pr_time p) ->
  Permutation (before T (timeline r)) (before T (timeline r')).
Proof.
  intros B D C N NA NT ND NF TA ET H H' Mp Late. destruct (continued_goes b b' C) as (ms & mt & G).
  pose proof (continued_built b b' C B) as B'.
  pose proof H as H0. pose proof H' as H0'.
  apply run_logs in H; [|apply reachable_dots, built_reachable, B].
  apply run_logs in H'; [|apply reachable_dots, built_reachable, B'].
  destruct H as (slog & tlog & q2 & autos & d & H). cbv zeta in H.
  destruct H' as (slog' & tlog' & q2' & autos' & d' & H'). cbv zeta in H'.
  destruct H as ((L1 & L2) & P & _ & _ & Au & M & Ev & _ & Sh & _).
  destruct H' as ((L1' & L2') & P' & _ & _ & Au' & M' & Ev' & _ & Sh' & _).
  destruct (logs_go_on b b' ms mt slog tlog slog' tlog' G D L1 L2 L1' L2') as (nsq & nt & -> & ->).
  pose proof (go_settings _ _ _ _ G) as (S1 & S2 & S3 & S4 & S5 & S6 & _).
  rewrite S6 in M'. rewrite S4 in Au'. rewrite S3, S5, NT in *. rewrite S1 in Sh'. rewrite (Au NA), (Au' NA), !app_nil_r in *.
  assert (d = 0 /\ d' = 0) as (-> & ->) by (unfold moves in *; destruct (b_fight_start b); [auto | congruence]).
  rewrite !earlier_none, !press_earlier_none in *. destruct Ev as (evs & Dt & Pe). destruct Ev' as (evs' & Dt' & Pe').
  assert (La : forall p, In p (nsq ++ nt) -> T <= pl_time p).
  { destruct Sh as (_ & Sh & _). destruct Sh' as (_ & Sh' & _). unfold more_presses in Mp. rewrite <- Sh, <- Sh' in Mp.
    assert (Q : Permutation (map (press_record (st_job (b_stats b))) (nsq ++ nt)) new).
    { apply Permutation_app_inv_l with (l := map (press_record (st_job (b_stats b))) (slog ++ tlog)). rewrite <- Mp, <- map_app.
      apply Permutation_map. symmetry. rewrite <- !app_assoc. apply Permutation_app_head. rewrite !app_assoc. apply Permutation_app_tail.
      apply Permutation_app_comm. }
    intros p Hp. apply (Late (press_record (st_job (b_stats b)) p)). eapply Permutation_in; [exact Q|]. apply in_map, Hp. }
  assert (Sub : forall p, In p (nsq ++ nt) -> In p ((slog ++ nsq) ++ tlog ++ nt)).
  { intros p Hp. rewrite !in_app_iff in *. tauto. }
  destruct (built_fresh b B) as (Bd & _). destruct (built_fresh b' B') as (Bd' & _). rewrite Bd in Dt. rewrite Bd' in Dt'.
  set (l := flat_map press_dots (slog ++ tlog)) in *. set (l' := flat_map press_dots ((slog ++ nsq) ++ tlog ++ nt)) in *.
  assert (Ins : inserted (fun x => T <= app_time (snd x)) l l').
  { apply dots_inserted. intros p x Hp Hx. apply press_dots_targets in Hx as (_ & -> & _).
    pose proof (press_order _ _ _ _ P' ND (Sub p Hp)). specialize (La p Hp). lia. }
  assert (Di' : distinguishable l') by (eapply log_distinguishable; eassumption).
  assert (Di : distinguishable l) by (intros x y Hx Hy; apply Di'; eapply inserted_in; eassumption).
  assert (Sm' : small_times (b_snap_dots b) l').
  { destruct ET as [E|E]; [left; rewrite <- S3; exact E | right]. intros x Hx. apply in_flat_map in Hx as (p & Hp & Hx).
    apply press_dots_targets in Hx as (_ & -> & _). eapply E; eassumption. }
  assert (Hf : forall x, In x l' -> app_time (snd x) <= dot_first_tick (b_snap_dots b) (app_time (snd x))) by (intros x Hx; eapply small_first; eassumption).
  destruct (all_dot_calls_spec (b_snap_dots b) None l Di (log_dots_dot _)) as (ks & K1 & K2); [intros x Hx; apply Hf; eapply inserted_in; eassumption|].
  destruct (all_dot_calls_spec (b_snap_dots b) None l' Di' (log_dots_dot _) Hf) as (ks' & K1' & K2').
  pose proof (all_ticks_before _ T l l' Ins Hf ks ks' _ _ Di' K1 K1' K2 K2') as Pt.
  set (tk := all_dot_calls (b_snap_dots b) None (fold_left record_dot l [])) in *.
  set (tk' := all_dot_calls (b_snap_dots b) None (fold_left record_dot l' [])) in *.
  assert (Wt : forall e tg, (match ev_secondary (with_targets e tg) with Some a => a | None => ev_primary (with_targets e tg) end <? T)
                            = (match ev_secondary e with Some a => a | None => ev_primary e end <? T)) by reflexivity.
  apply (downtimed_filter _ _ _ _ Wt) in Dt. apply (downtimed_filter _ _ _ _ Wt) in Dt'.
  fold (before T (map entry (flat_map press_entries (slog ++ tlog) ++ tk))) in Dt. fold (before T evs) in Dt.
  fold (before T (map entry (flat_map press_entries ((slog ++ nsq) ++ tlog ++ nt) ++ tk'))) in Dt'. fold (before T evs') in Dt'.
  assert (Pp : Permutation (before T (map entry (flat_map press_entries ((slog ++ nsq) ++ tlog ++ nt) ++ tk')))
                 (before T (map entry (flat_map press_entries (slog ++ tlog) ++ tk)))).
  { rewrite !before_entries, !calls_before_app, !map_app, Pt. apply Permutation_app_tail. apply Permutation_map.
    transitivity (calls_before T (flat_map press_entries ((slog ++ tlog) ++ (nsq ++ nt)))).
    - apply perm_filter, Permutation_flat_map. rewrite <- !app_assoc. apply Permutation_app_head. rewrite !app_assoc. apply Permutation_app_tail.
      apply Permutation_app_comm.
    - rewrite flat_map_app, calls_before_app, (calls_before_none T (flat_map press_entries (nsq ++ nt))), app_nil_r; [reflexivity|].
      intros c Hc. apply in_flat_map in Hc as (p & Hp & Hc). pose proof (press_entries_late _ _ _ _ _ P' ND NF (Sub p Hp) Hc). specialize (La p Hp). lia. }
  destruct (downtimed_perm _ _ _ Pp _ Dt') as (out & Do & Po).
  assert (out = before T evs) as ->.
  { eapply downtimed_fun; [|exact Dt]. eapply downtimed_ext; [|exact Do]. intros e t He Ht.
    unfold before in He. apply filter_In in He as (He & _). apply in_map_iff in He as (c & <- & Hc). rewrite entry_targets in Ht.
    eapply windows_go_on; [exact G|]. apply in_app_or in Hc as [Hc|Hc].
    - apply in_flat_map in Hc as (p & Hp & Hc). eapply played_targets; [exact B | exact P | exact Hp|]. eapply press_entry_targets; eassumption.
    - pose proof (all_ticks_targets _ _ _ _ _ K2 c t Hc Ht) as (fu & Hk). apply K1 in Hk. apply in_map_iff in Hk as (x & Ex & Hx).
      apply in_flat_map in Hx as (p & Hp & Hx). apply press_dots_targets in Hx as (Hx & _). rewrite Ex in Hx. cbn in Hx.
      eapply played_targets; [exact B | exact P | exact Hp | exact Hx]. }
  rewrite (before_perm T _ _ Pe), (before_perm T _ _ Pe'). symmetry. exact Po.
Qed.
