(** * Facts for C33, C47: order of follow-ups, tracing instances back *)

From Coq Require Import ZArith QArith List String Bool Permutation Sorted Lia.
From Verif Require Import Base BaseFacts Heap HeapFacts Stats Strings Types Lookup StatusEffect JobResource Combo Events EventsFacts
  Rotation DamageBuild Damage SpecQueue SpecPlay SpecTimeline TimelineFacts SpecRun RunFacts RunProps SpecDamage DamageFacts DamageStory DamageRun.
Import ListNotations.
Open Scope string_scope.
Open Scope Z_scope.

Lemma lands_of e P t k l is x :
  lands e P t k l is -> In x is -> di_id x = ev_id e /\ di_skill x = ev_skill e /\ In (di_target x) l.
Proof.
  induction 1 as [|k y l m b d is js HP HD HL IH]; intro H; [destruct H|].
  apply in_app_or in H. destruct H as [H|H]; [|destruct (IH H) as (A & B & C); repeat split; auto; now right].
  inversion HD; subst; [|destruct H]. destruct H as [<-|[]]. cbn. auto.
Qed.

Lemma in_concat_lands (P : event -> list instance -> Prop) evs hits x :
  Forall2 P evs hits -> In x (List.concat hits) -> exists e is, In e evs /\ P e is /\ In x is.
Proof.
  induction 1 as [|e is evs hits H F IH]; intro Hin; cbn in Hin; [destruct Hin|].
  apply in_app_or in Hin. destruct Hin as [Hin|Hin]; [exists e, is; repeat split; auto; now left|].
  destruct (IH Hin) as (e' & is' & A & B & C). exists e', is'. repeat split; auto. now right.
Qed.

Lemma instance_source b b' tk tk' qu' l x :
  reachable b -> get_skill_timing b = Ok b' -> get_damage_instances tk (b_queue b') = Ok (tk', qu', l) -> In x l ->
  exists e, In e (q_heap (b_queue b')) /\ di_id x = ev_id e /\ di_skill x = ev_skill e /\ In (di_target x) (ev_targets e).
Proof.
  intros R H HD Hx. destruct (damage_run_of_timeline _ _ _ _ _ _ R H HD) as (_ & h & hits & (_ & _ & _ & P & _) & _ & _ & F).
  assert (Hin : In x (List.concat hits)) by (apply (Permutation_in _ P), Hx).
  destruct (in_concat_lands _ _ _ _ F Hin) as (e & is & He & (t & _ & HL) & Hi).
  exists e. split; [exact He|]. exact (lands_of _ _ _ _ _ _ _ HL Hi).
Qed.

(** ** The table of snapshot times *)

Lemma table_get evs : forall d e,
  NoDup (map ev_id evs) -> In e evs ->
  zget (ev_id e) (fold_left (fun d e => zset (ev_id e) (ev_primary e, sk_name (ev_skill e)) d) evs d)
  = Some (ev_primary e, sk_name (ev_skill e)).
Proof.
  assert (K : forall evs d k, ~ In k (map ev_id evs) ->
     zget k (fold_left (fun d e => zset (ev_id e) (ev_primary e, sk_name (ev_skill e)) d) evs d) = zget k d).
  { clear. induction evs as [|e evs IH]; intros d k N; cbn; [reflexivity|]. cbn in N. rewrite IH by tauto.
    rewrite zget_zset. destruct (Z.eqb_spec k (ev_id e)); [subst; tauto | reflexivity]. }
  induction evs as [|e0 evs IH]; intros d e N H; [destruct H|]. cbn. inversion N as [|? ? N1 N2]; subst.
  destruct H as [->|H]; [|now apply IH]. rewrite K by exact N1. rewrite zget_zset, Z.eqb_refl. reflexivity.
Qed.

Lemma snapshot_table_get qu e :
  NoDup (map ev_id (q_heap qu)) -> In e (q_heap qu) ->
  zget (ev_id e) (snapshot_table (get_q qu)) = Some (ev_primary e, sk_name (ev_skill e)).
Proof.
  intros N H. unfold snapshot_table. pose proof (get_q_perm qu) as P.
  apply table_get.
  - apply (Permutation_NoDup (l := map ev_id (q_heap qu))); [apply Permutation_map; now symmetry | exact N].
  - apply (Permutation_in _ (Permutation_sym P) H).
Qed.

Lemma traces_back b b' tk tk' qu' l st sim b2 b2' :
  reachable b -> get_skill_timing b = Ok b' -> get_damage_instances tk (b_queue b') = Ok (tk', qu', l) ->
  ds_init st l = Ok sim ->
  get_skill_timing b2 = Ok b2' -> b_queue b2' = b_queue b' ->
  exists r, add_damage_snapshots sim b2 = Ok r /\ map fst r = l
    /\ Forall (fun xt => exists e, In e (q_heap (b_queue b')) /\ di_id (fst xt) = ev_id e /\ di_skill (fst xt) = ev_skill e
                 /\ snd xt = ev_primary e) r.
Proof.
  intros R H HD HS H2 Q.
  assert (ES : ds_instances sim = l).
  { unfold ds_init in HS. apply bind_ok in HS as (tr & _ & HS). injection HS as <-. cbn. apply sort_by_id.
    destruct (damage_run_of_timeline _ _ _ _ _ _ R H HD) as (_ & h & hits & (_ & _ & _ & _ & S) & _). exact S. }
  unfold add_damage_snapshots. rewrite H2. cbn [bind]. rewrite Q, ES.
  pose proof (timeline_prepared _ _ R H) as (_ & _ & N & _).
  assert (A : forall x, In x l -> exists e, In e (q_heap (b_queue b')) /\ di_id x = ev_id e /\ di_skill x = ev_skill e).
  { intros x Hx. destruct (instance_source _ _ _ _ _ _ x R H HD Hx) as (e & A & B & C & _). eauto. }
  clear HD HS ES. induction l as [|x l IH].
  - exists []. cbn. auto.
  - destruct (IH (fun y Hy => A y (or_intror Hy))) as (r & E & M & F). destruct (A x (or_introl eq_refl)) as (e & He & I & Sk).
    exists ((x, ev_primary e) :: r). cbn [mapM]. unfold trace_back at 1. rewrite I, (snapshot_table_get _ _ N He), Sk, String.eqb_refl.
    cbn [bind]. rewrite E. cbn. split; [reflexivity|]. split; [now rewrite M|]. constructor; [|exact F]. exists e. cbn. auto.
Qed.

(** ** Follow-ups *)

(** Where an event of a timeline comes from. *)
Definition comes_from (d : Z) (c : add_call) (e : event) : Prop := exists tg, anon e = with_targets (earlier d (entry c)) tg.

Lemma numbered_priority p : forall fus k c, In c (numbered (follow_up_entries p) k fus) ->
  exists j, k <= j /\ ad_priority c = 1000 * ad_primary c + j.
Proof.
  induction fus as [|fu fus IH]; intros k c H; cbn in H; [destruct H|]. apply in_app_or in H. destruct H as [H|H].
  - unfold follow_up_entries in H. destruct (fu_dot fu); [destruct H|]. destruct H as [<-|[]]. exists k. split; [lia|]. reflexivity.
  - destruct (IH _ _ H) as (j & J & E). exists j. split; [lia | exact E].
Qed.
Lemma numbered_order p : forall fus k pre c1 mid c2 post,
  numbered (follow_up_entries p) k fus = (pre ++ c1 :: mid ++ c2 :: post)%list ->
  exists j1 j2, j1 < j2 /\ ad_priority c1 = 1000 * ad_primary c1 + j1 /\ ad_priority c2 = 1000 * ad_primary c2 + j2.
Proof.
  induction fus as [|fu fus IH]; intros k pre c1 mid c2 post E; cbn [numbered] in E.
  - destruct pre; discriminate E.
  - unfold follow_up_entries in E at 1. destruct (fu_dot fu); [exact (IH _ _ _ _ _ _ E)|]. cbn [List.app] in E.
    destruct pre as [|c pre]; cbn [List.app] in E.
    + injection E as E1 E2. assert (H : In c2 (numbered (follow_up_entries p) (k + 1) fus))
        by (rewrite E2; apply in_or_app; right; now left).
      destruct (numbered_priority _ _ _ _ H) as (j & J & Ej). exists k, j. split; [lia|]. split; [now rewrite <- E1 | exact Ej].
    + injection E as E1 E2. exact (IH _ _ _ _ _ _ E2).
Qed.
Lemma press_entries_order p pre c1 mid c2 post :
  press_entries p = (pre ++ c1 :: mid ++ c2 :: post)%list -> ad_primary c1 <= ad_primary c2 -> ad_priority c1 < ad_priority c2.
Proof.
  intros E L. unfold press_entries in E. destruct pre as [|c pre]; cbn [List.app] in E.
  - injection E as E1 E2. assert (H : In c2 (numbered (follow_up_entries p) 1 (pl_follow_ups p)))
      by (rewrite E2; apply in_or_app; right; now left).
    destruct (numbered_priority _ _ _ _ H) as (j & J & Ej).
    assert (ad_priority c1 = 1000 * ad_primary c1) by (rewrite <- E1; reflexivity). lia.
  - injection E as E1 E2. destruct (numbered_order _ _ _ _ _ _ _ _ E2) as (j1 & j2 & J & A & B). lia.
Qed.

Lemma follow_ups_in_order b b' tk tk' qu' l :
  reachable b -> get_skill_timing b = Ok b' -> get_damage_instances tk (b_queue b') = Ok (tk', qu', l) ->
  exists slog tlog extra d, rotation_played b slog tlog /\ shows_timeline b b' (flat_map press_entries (slog ++ tlog) ++ extra) d
    /\ exists h hits, damage_run tk (q_heap (b_queue b')) tk' l h hits
      /\ forall p pre c1 mid c2 post e1 e2,
           In p (slog ++ tlog)%list -> press_entries p = (pre ++ c1 :: mid ++ c2 :: post)%list -> ad_primary c1 <= ad_primary c2 ->
           In e1 (q_heap (b_queue b')) -> In e2 (q_heap (b_queue b')) -> comes_from d c1 e1 -> comes_from d c2 e2 ->
           exists pre mid post, map label h = (pre ++ (ev_id e1, None) :: mid ++ (ev_id e2, None) :: post)%list.
Proof.
  intros R H HD. destruct (timeline_shown b b' R H) as (slog & tlog & extra & d & RP & ST & _).
  exists slog, tlog, extra, d. split; [exact RP|]. split; [exact ST|].
  destruct (damage_run_of_timeline _ _ _ _ _ _ R H HD) as (_ & h & hits & DR & _ & O & _). exists h, hits. split; [exact DR|].
  intros p pre c1 mid c2 post e1 e2 _ E L I1 I2 (t1 & F1) (t2 & F2). apply (O e1 e2 I1 I2).
  apply (f_equal ev_priority) in F1. apply (f_equal ev_priority) in F2. cbn in F1, F2.
  pose proof (press_entries_order _ _ _ _ _ _ E L). unfold key_le. rewrite F1, F2. lia.
Qed.
