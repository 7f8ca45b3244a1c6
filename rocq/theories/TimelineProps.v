(** * Consequences for C19, C20 *)

From Coq Require Import ZArith QArith List String Bool Lia Permutation Sorted.
From Verif Require Import Base Float Types Lookup Stats Library Events Rotation SpecQueue SpecPlay SpecTimeline TimelineFacts SpecDots DotFacts RunFacts
  SpecRun RunProps.
Import ListNotations.
Open Scope Z_scope.

Lemma damages_earlier d e c : damages (earlier d e) c <-> damages e c.
Proof. reflexivity. Qed.
Lemma earliest_perm l m t : Permutation l m -> earliest_damage l t -> earliest_damage m t.
Proof.
  intros P ((e & c & He & Hc) & M). split.
  - exists e, c. split; [eapply Permutation_in; eassumption | exact Hc].
  - intros e' c' t' He'. apply M. eapply Permutation_in; [apply Permutation_sym, P | exact He'].
Qed.
Lemma first_damage_at_zero b b1 :
  reachable b -> b_fight_start b = None -> no_windows b -> get_skill_timing b = Ok b1 ->
  (exists e c, In e (timeline b1) /\ damages e c) ->
  earliest_damage (timeline b1) 0.
Proof.
  intros R Fs W H (e & c & He & Hc). destruct (shifted b b1 R Fs W H) as (b0 & d & _ & M & P & _).
  destruct M as [M|(-> & N)].
  - eapply earliest_perm; [apply Permutation_sym, P|]. apply earliest_shifted, M.
  - apply (Permutation_in _ P) in He. apply in_map_iff in He as (x & <- & Hx). destruct (N x c Hx). exact Hc.
Qed.
Lemma no_damage_no_move b b1 :
  reachable b -> b_fight_start b = None -> no_windows b -> get_skill_timing b = Ok b1 ->
  (forall e c, In e (timeline b1) -> ~ damages e c) ->
  exists b0, get_skill_timing (starting b (Some 0)) = Ok b0
    /\ Permutation (timeline b1) (timeline b0) /\ get_button_press_timing b1 = get_button_press_timing b0.
Proof.
  intros R Fs W H N. destruct (shifted b b1 R Fs W H) as (b0 & d & H0 & M & P & Q). exists b0. split; [exact H0|].
  assert (d = 0).
  { destruct M as [((e & c & He & Hc & _) & _)|(-> & _)]; [|reflexivity].
    exfalso. apply (N (earlier d e) c); [|exact Hc]. apply (Permutation_in _ (Permutation_sym P)), in_map, He. }
  subst d. split.
  - rewrite P. rewrite <- (map_id (timeline b0)) at 2.
    erewrite map_ext; [reflexivity|]. apply earlier_0.
  - rewrite Q. rewrite <- (map_id (get_button_press_timing b0)) at 2. apply map_ext. intros [t n j c]. unfold press_earlier. cbn. f_equal. lia.
Qed.

Lemma timeline_moves b b' :
  reachable b -> get_skill_timing b = Ok b' ->
  exists slog tlog extra d, rotation_played b slog tlog
    /\ moves (b_fight_start b) (map entry (flat_map press_entries (slog ++ tlog) ++ extra)) d
    /\ shows_presses b b' (slog ++ tlog) d
    /\ shows_timeline b b' (flat_map press_entries (slog ++ tlog) ++ extra) d.
Proof.
  intros R H. apply run_spec in H; [|apply reachable_dots, R].
  destruct H as (slog & tlog & q2 & autos & d & H). cbv zeta in H. eexists slog, tlog, _, d.
  destruct H as (H1 & _ & _ & _ & H2 & H4 & _ & H5 & _). split; [exact H1|]. split; [exact H2|]. split; [exact H5 | exact H4].
Qed.

Lemma kept_in {A} (P : A -> Prop) l l' x : kept P l l' -> In x l' -> P x.
Proof. induction 1; intros Hx; [destruct Hx | destruct Hx as [<-|Hx]; auto | auto]. Qed.
Lemma downtimed_spared w l l' :
  downtimed w l l' -> forall e target, In e l' -> In target (ev_targets e) -> spared w e target.
Proof.
  induction 1 as [|e l l' K D IH|e tg l l' K N D IH]; intros x target Hx Ht; [destruct Hx | eapply IH; eassumption|].
  destruct Hx as [<-|Hx]; [|eapply IH; eassumption].
  apply (kept_in _ _ _ _ K Ht).
Qed.
Lemma all_spared b b' e target :
  reachable b -> get_skill_timing b = Ok b' ->
  In e (timeline b') -> In target (ev_targets e) ->
  spared (windows_of b) e target.
Proof.
  intros R H He Ht. destruct (timeline_shown b b' R H) as (slog & tlog & extra & d & _ & (evs & D & P) & _).
  eapply downtimed_spared; [exact D | eapply Permutation_in; eassumption | exact Ht].
Qed.
