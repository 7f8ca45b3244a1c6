(** * Downtime as asked for (C20) *)

From Coq Require Import ZArith QArith List String Bool Lia Permutation Sorted.
From Verif Require Import Base BaseFacts Heap HeapFacts Float Strings Types Lookup StatusEffect JobResource Combo Stats Library Events Rotation SpecQueue SpecPlay
  SpecTimeline SpecDots SpecRun SpecLater SpecReplay SpecShuffle SpecSettings EventsFacts PlayFacts LogFacts TimelineFacts DotFacts RunFacts RunProps TimelineProps LaterFacts ShuffleFacts IdleFacts SettingsFacts.
Import ListNotations.
Open Scope Z_scope.

Lemma kept_among {A} (P : A -> Prop) l l' x : kept P l l' -> In x l' -> In x l.
Proof. induction 1; intros I; [destruct I | destruct I as [<-|I]; [left; reflexivity | right; auto] | right; auto]. Qed.
Lemma downtimed_among w l l' : downtimed w l l' -> forall e t, In e l' -> In t (ev_targets e) -> exists e0, In e0 l /\ In t (ev_targets e0).
Proof.
  induction 1 as [|e l l' K D IH|e tg l l' K N D IH]; intros x t Hx Ht; [destruct Hx| |].
  - destruct (IH x t Hx Ht) as (e0 & I & T). exists e0. split; [right; exact I | exact T].
  - destruct Hx as [<-|Hx].
    + exists e. split; [left; reflexivity|]. eapply kept_among; eassumption.
    + destruct (IH x t Hx Ht) as (e0 & I & T). exists e0. split; [right; exact I | exact T].
Qed.
Lemma ticks_known last b slog tlog c t :
  built b -> rotation_played b slog tlog ->
  In c (all_dot_calls (b_snap_dots b) last (fold_left record_dot (flat_map press_dots (slog ++ tlog)) (b_dots b))) -> In t (ad_targets c) -> In t (b_targets b).
Proof.
  intros B P Hc Ht. destruct (built_fresh b B) as (Bd & _). rewrite Bd in Hc. unfold all_dot_calls in Hc. apply in_flat_map in Hc as ([k v] & Hk & Hc).
  apply in_flat_map in Hc as (x & _ & Hc). cbn [fst snd] in *. unfold dot_calls in Hc. destruct (fu_dot (fst x)) as [dur|]; [|destruct Hc].
  assert (E : ad_targets c = [k]).
  { revert Hc. generalize 0. generalize (dot_ticks (b_snap_dots b) last dur (snd x)). intros ticks. induction ticks as [|[e z] l IH]; intros n H; [destruct H|]. destruct H as [<-|H]; [reflexivity | eapply IH, H]. }
  rewrite E in Ht. destruct Ht as [<-|[]]. apply (in_map fst) in Hk. apply dots_keys in Hk as [[]|Hk]. cbn [fst] in Hk. apply in_map_iff in Hk as (y & Ey & Hy).
  apply in_flat_map in Hy as (p & Hp & Hy). apply press_dots_targets in Hy as (Hy & _). rewrite Ey in Hy. eapply played_targets; eassumption.
Qed.
Lemma targets_known b b' e t : built b -> b_autos b = false -> get_skill_timing b = Ok b' -> In e (timeline b') -> In t (ev_targets e) -> In t (b_targets b).
Proof.
  intros B Au H I T. apply run_logs in H; [|exact (reachable_dots _ (built_reachable _ B))]. destruct H as (slog & tlog & q2 & autos & d & X). cbv zeta in X.
  destruct X as (_ & P & _ & _ & Na & _ & (evs & Dt & Pm) & _). rewrite (Na Au), app_nil_r in Dt.
  destruct (downtimed_among _ _ _ Dt e t (Permutation_in _ Pm I) T) as (e0 & I0 & T0). apply in_map_iff in I0 as (e1 & <- & I1). apply in_map_iff in I1 as (c & <- & Ic).
  cbn [earlier ev_targets] in T0. rewrite entry_targets in T0. apply in_app_or in Ic as [Ic|Ic].
  - apply in_flat_map in Ic as (p & Ip & Ic). eapply played_targets; [exact B|exact P|exact Ip|]. eapply press_entry_targets; eassumption.
  - eapply (ticks_known _ b); eassumption.
Qed.
Theorem asked_downtime st lib snap tr start w dt b0 l b b' e target c t :
  rb_init st lib snap false tr start w dt = Ok b0 -> follow b0 l = Ok b -> get_skill_timing b = Ok b' ->
  In e (timeline b') -> In target (ev_targets e) -> damages e c -> effect_time e t ->
  ~ asked_at (asked w target) t c /\ ~ asked_at (asked w target) (ev_primary e) c.
Proof.
  intros B0 F H I T D Et. pose proof (built_init _ _ _ _ _ _ _ _ _ B0) as Bt0. pose proof (follow_built _ _ _ Bt0 F) as B.
  pose proof F as F0. apply follow_spec in F0 as (_ & E).
  assert (Wn : b_windows b = b_windows b0) by (rewrite E; reflexivity).
  assert (Au : b_autos b = false) by (rewrite E; unfold rb_init in B0; apply bind_ok in B0 as (pr & _ & B0); injection B0 as <-; reflexivity).
  pose proof (targets_known b b' e target B Au H I T) as K.
  destruct (all_spared b b' e target (built_reachable _ B) H I T c t D Et) as (S1 & S2).
  split; intros A; [apply S1 | apply S2]; apply (windows_asked st lib snap false tr start w dt b0 b target _ c B0 Wn K), A.
Qed.
