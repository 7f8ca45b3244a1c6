(** * The presses of a rotation are determined by its calls (C12-C14) *)

From Coq Require Import ZArith QArith List String Bool Lia Permutation Sorted.
From Verif Require Import Base BaseFacts Float Strings Types Lookup StatusEffect JobResource Combo Stats Library Events Rotation SpecPlay SpecTimeline SpecRun SpecLater LaterFacts.
Import ListNotations.
Open Scope Z_scope.

Lemma scaled_fun st ts base mults t t' : scaled st ts base mults t -> scaled st ts base mults t' -> t = t'.
Proof.
  intros (a & A & ->) (b & B & ->). replace b with a; [reflexivity|].
  destruct (affected_by_speed_stat ts); [|congruence]. destruct A as (c & C & ->), B as (c' & C' & ->). congruence.
Qed.
Lemma cast_fun st m bu ts c c' : is_cast_time st m bu ts c -> is_cast_time st m bu ts c' -> c = c'.
Proof.
  unfold is_cast_time. destruct (sm_ignore_cast_times m); [congruence|].
  intros (sp & t & E & S & K) (sp' & t' & E' & S' & K'). assert (sp' = sp) by congruence. subst sp'.
  pose proof (scaled_fun _ _ _ _ _ _ S S') as <-. destruct (ef_flat_cast bu) as [r|]; [|congruence].
  destruct K, K'. destruct (Z_le_gt_dec r t); [rewrite H, H1 by lia; reflexivity | rewrite H0, H2 by lia; reflexivity].
Qed.
Lemma recast_fun st sp bu de r r' : is_recast_time st sp bu de r -> is_recast_time st sp bu de r' -> r = r'.
Proof.
  intros (t & S & A & B & C) (t' & S' & A' & B' & C'). pose proof (scaled_fun _ _ _ _ _ _ S S') as <-.
  destruct (Z.eq_dec (gcd_base_recast sp) 2500); [|rewrite A, A' by assumption; reflexivity].
  destruct (Z_lt_ge_dec (t - ef_flat_gcd bu) 1500); [rewrite C, C' by assumption; reflexivity | rewrite B, B' by (assumption || lia); reflexivity].
Qed.

(** Presses of the same call at the same time, with the same trackers. *)
Lemma press_fun st tk tk1 tk1' p p' :
  pl_time p = pl_time p' -> pl_skill p = pl_skill p' -> pl_asked p = pl_asked p' -> pl_job p = pl_job p' -> pl_targets p = pl_targets p' ->
  in_force tk p tk1 -> in_force tk p' tk1' -> well_played st p -> well_played st p' -> p = p' /\ tk1 = tk1'.
Proof.
  intros T S A J G (se1 & se2 & jr & ct & mb & md & mj & mc & m1 & m2 & F1 & F2 & F3 & F4 & F5 & F6 & F7 & F8)
    (se1' & se2' & jr' & ct' & mb' & md' & mj' & mc' & m1' & m2' & F1' & F2' & F3' & F4' & F5' & F6' & F7' & F8') (W1 & W2 & _ & W4 & _) (W1' & W2' & _ & W4' & _).
  destruct p as [t s a j g m bu de ts c fus], p' as [t' s' a' j' g' m' bu' de' ts' c' fus']. cbn [pl_time pl_skill pl_asked pl_job pl_targets pl_modifier pl_buffs pl_debuffs pl_timing pl_cast pl_follow_ups] in *.
  subst t' s' a' j' g'. rewrite F1 in F1'. injection F1' as <- <- <-. rewrite F2 in F2'. injection F2' as <- <- <-.
  rewrite F3 in F3'. injection F3' as <- <-. subst m1 m1'. rewrite F5 in F5'. injection F5' as <- <-. subst m2 m2'.
  rewrite F7 in F7'. injection F7' as <-. rewrite W1 in W1'. injection W1' as <-. rewrite W4 in W4'. injection W4' as <-.
  pose proof (cast_fun _ _ _ _ _ _ W2 W2') as <-. subst. auto.
Qed.
Lemma grants_fun tk t tr s m tg a b : grants tk t tr s m tg a -> grants tk t tr s m tg b -> a = b.
Proof. intros (x & y & A & B & ->) (x' & y' & A' & B' & ->). congruence. Qed.
Lemma follow_ups_grant_fun p l : forall tk a b, follow_ups_grant p tk l a -> follow_ups_grant p tk l b -> a = b.
Proof.
  induction l as [|fu l IH]; intros tk a b A B; inversion A; inversion B; subst; try congruence; eauto.
  match goal with G : grants _ _ _ _ _ _ ?x, G' : grants _ _ _ _ _ _ ?y |- _ => pose proof (grants_fun _ _ _ _ _ _ _ _ G G') as <- end. eauto.
Qed.
Lemma tracked_cons_inv tk p l : tracked tk (p :: l) ->
  exists tk1 tk2 tk3, in_force tk p tk1 /\ grants tk1 (pl_application p) (pl_snapshot p) (pl_skill p) (pl_modifier p) (pl_targets p) tk2
    /\ follow_ups_grant p tk2 (pl_follow_ups p) tk3 /\ tracked tk3 l.
Proof. intros H. inversion H; subst. eauto 8. Qed.

Lemma step_fun st tk p p' l l' :
  pl_time p = pl_time p' -> pl_skill p = pl_skill p' -> pl_asked p = pl_asked p' -> pl_job p = pl_job p' -> pl_targets p = pl_targets p' ->
  well_played st p -> well_played st p' -> tracked tk (p :: l) -> tracked tk (p' :: l') ->
  p = p' /\ exists tk', tracked tk' l /\ tracked tk' l'.
Proof.
  intros T S A J G W W' K K'. apply tracked_cons_inv in K as (a & b & c & F & Gr & Fo & K). apply tracked_cons_inv in K' as (a' & b' & c' & F' & Gr' & Fo' & K').
  destruct (press_fun _ _ _ _ _ _ T S A J G F F' W W') as (<- & <-). split; [reflexivity|].
  pose proof (grants_fun _ _ _ _ _ _ _ _ Gr Gr') as <-. pose proof (follow_ups_grant_fun _ _ _ _ _ Fo Fo') as <-. eauto.
Qed.
Lemma sequence_fun st l : forall tk ready gcd log log',
  Forall2 carries_seq l log -> Forall2 carries_seq l log' -> scheduled st ready gcd log -> scheduled st ready gcd log' ->
  Forall (well_played st) log -> Forall (well_played st) log' -> tracked tk log -> tracked tk log' -> log = log'.
Proof.
  induction l as [|x l IH]; intros tk ready gcd log log' C C' S S' W W' T T'; inversion C as [|? p ? lo (Cs & Ca & Cj & Ct) C2]; inversion C' as [|? p' ? lo' (Cs' & Ca' & Cj' & Ct') C2']; subst; [reflexivity|].
  inversion W as [|? ? W1 W2]; inversion W' as [|? ? W1' W2']; subst.
  assert (E : pl_time p = pl_time p').
  { inversion S; inversion S'; subst; try congruence. destruct gcd as [g|].
    - repeat match goal with H : forall g, Some _ = Some g -> _ |- _ => specialize (H _ eq_refl) end. congruence.
    - repeat match goal with H : None = None -> _ |- _ => specialize (H eq_refl) end. congruence. }
  destruct (step_fun st tk p p' lo lo' E) as (<- & tk' & T2 & T2'); try congruence.
  f_equal. inversion S; inversion S'; subst; try congruence.
  - eapply IH; eauto.
  - match goal with A : pl_timing p = Some ?s, B : pl_timing p = Some ?s' |- _ => assert (s = s') by congruence; subst end.
    match goal with A : is_recast_time _ _ _ _ ?r, B : is_recast_time _ _ _ _ ?r' |- _ => pose proof (recast_fun _ _ _ _ _ _ A B); subst end.
    eapply IH; eauto.
Qed.
Lemma timed_fun st l : forall tk log log',
  Forall2 carries_timed l log -> Forall2 carries_timed l log' ->
  Forall (well_played st) log -> Forall (well_played st) log' -> tracked tk log -> tracked tk log' -> log = log'.
Proof.
  induction l as [|x l IH]; intros tk log log' C C' W W' T T'; inversion C as [|? p ? lo (C0 & Cs & Ca & Cj & Ct) C2]; inversion C' as [|? p' ? lo' (C0' & Cs' & Ca' & Cj' & Ct') C2']; subst; [reflexivity|].
  inversion W as [|? ? W1 W2]; inversion W' as [|? ? W1' W2']; subst.
  destruct (step_fun st tk p p' lo lo') as (<- & tk' & T2 & T2'); try congruence.
  f_equal. eapply IH; eauto.
Qed.

Lemma played_determined b slog tlog slog' tlog' :
  rotation_played b slog tlog -> rotation_played b slog' tlog' -> slog = slog' /\ (distinct_times b -> tlog = tlog').
Proof.
  intros (C & S & (o & P & So & Ct) & W & _ & tk & N & T & Tt) (C' & S' & (o' & P' & So' & Ct') & W' & _ & tk' & N' & T' & Tt').
  rewrite N in N'. injection N' as <-. apply Forall_app in W as (W1 & W2). apply Forall_app in W' as (W1' & W2'). split.
  - exact (sequence_fun _ _ _ _ _ _ _ C C' S S' W1 W1' T T').
  - intros D. assert (o = o') as <-; [|exact (timed_fun _ _ _ _ _ Ct Ct' W2 W2' Tt Tt')].
    apply (sorted_unique tm_time).
    + apply sorted_le_lt; [|exact So]. exact (Permutation_NoDup (Permutation_map _ P) D).
    + apply sorted_le_lt; [|exact So']. exact (Permutation_NoDup (Permutation_map _ P') D).
    + intros x. split; intros I; [apply (Permutation_in _ P'), (Permutation_in _ (Permutation_sym P)), I | apply (Permutation_in _ P), (Permutation_in _ (Permutation_sym P')), I].
Qed.
