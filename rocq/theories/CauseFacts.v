(** * Damage does not depend on what comes later *)

From Coq Require Import ZArith QArith List String Bool Lia Permutation Sorted.
From Verif Require Import Base BaseFacts Heap HeapFacts Strings Types Lookup StatusEffect JobResource Combo Stats
  Library Events EventsFacts SpecQueue Rotation DamageBuild DamageFacts SpecPlay SpecTimeline
  TimelineFacts SpecDots DotFacts RunFacts SpecRun RunProps ApiFacts DamageRun PlayFacts LogFacts SpecLater LaterFacts SpecCause.
Import ListNotations.
Open Scope string_scope.
Open Scope Z_scope.

(** ** One step on two states with the same trackers *)

Lemma enum_from_ge {A} (l : list A) : forall k p, In p (enum_from k l) -> k <= fst p.
Proof.
  induction l as [|x l IH]; intros k p H; [destruct H|]. cbn in H. destruct H as [<-|H]; [cbn; lia|]. apply IH in H. lia.
Qed.
Lemma target_time_ge n t i : 0 <= i -> t <= target_time n t i.
Proof. intros H. unfold target_time, MULTI_TARGET_DELAY_PER_TARGET. destruct (1 <? Z.of_nat n); lia. Qed.

Lemma apply_two n t s m bu sn id l : forall k se out out' m0 x y,
  0 <= k ->
  foldM (apply_target n t s m bu sn id) (enum_from k l) (se, out, m0) = Ok x ->
  foldM (apply_target n t s m bu sn id) (enum_from k l) (se, out', m0) = Ok y ->
  fst (fst x) = fst (fst y) /\ snd x = snd y
  /\ exists is, Permutation (snd (fst x)) (is ++ out) /\ Permutation (snd (fst y)) (is ++ out') /\ Forall (fun i => t <= di_time i) is.
Proof.
  induction l as [|tg l IH]; intros k se out out' m0 x y K H H'.
  - cbn in H, H'. injection H as <-. injection H' as <-. cbn. repeat split. exists []. repeat split; auto.
  - cbn [enum_from foldM] in H, H'.
    apply bind_ok in H as ([[se1 o1] m1] & A & H). apply bind_ok in H' as ([[se1' o1'] m1'] & A' & H').
    unfold apply_target in A, A'. cbv zeta in A, A'.
    apply bind_ok in A as ([[se2 de] m2] & A1 & A). apply bind_ok in A' as ([[se2' de'] m2'] & A1' & A').
    rewrite A1 in A1'. injection A1' as <- <- <-. clear A1.
    apply bind_ok in A as (d & A1 & A). apply bind_ok in A' as (d' & A1' & A'). rewrite A1 in A1'. injection A1' as <-.
    assert (K1 : 0 <= k + 1) by lia.
    destruct d as [sp|].
    + apply bind_ok in A as (o2 & B & A). apply bind_ok in A' as (o2' & B' & A'). injection A as <- <- <-. injection A' as <- <- <-.
      apply heappush_perm in B. apply heappush_perm in B'.
      destruct (IH _ _ _ _ _ _ _ K1 H H') as (E1 & E2 & is & P & P' & F). split; [exact E1|]. split; [exact E2|].
      eexists (is ++ [_])%list. rewrite <- !app_assoc. cbn [List.app]. rewrite B, B'. split; [exact P|]. split; [exact P'|].
      apply Forall_app. split; [exact F|]. constructor; [apply target_time_ge, K | constructor].
    + injection A as <- <- <-. injection A' as <- <- <-. apply (IH _ _ _ _ _ _ _ K1 H H').
Qed.

Lemma application_two tk out out' e x y :
  application_event tk out e = Ok x -> application_event tk out' e = Ok y ->
  fst x = fst y /\ exists is, Permutation (snd x) (is ++ out) /\ Permutation (snd y) (is ++ out') /\ Forall (fun i => ev_primary e <= di_time i) is.
Proof.
  unfold application_event. cbv zeta. destruct (resource_conditional tk _ _ _ _) as [tk1 m1]. intros H H'.
  apply bind_ok in H as (tk2 & A & H). rewrite A in H'. cbn [bind] in H'. clear A.
  apply bind_ok in H as ([tk3 m2] & A & H). rewrite A in H'. cbn [bind] in H'. clear A.
  apply bind_ok in H as ([[se1 bu] m3] & A & H). rewrite A in H'. cbn [bind] in H'. clear A.
  apply bind_ok in H as ([[se2 o2] m4] & A & H). apply bind_ok in H' as ([[se2' o2'] m4'] & A' & H').
  destruct (apply_two _ _ _ _ _ _ _ _ _ _ _ _ _ _ _ (Z.le_refl 0) A A') as (E1 & E2 & is & P & P' & F). cbn [fst snd] in *. subst se2' m4'.
  apply bind_ok in H as (se3 & B & H). rewrite B in H'. cbn [bind] in H'. injection H as <-. injection H' as <-. cbn [fst snd].
  split; [reflexivity|]. exists is. auto.
Qed.

(** What a snapshot leaves on the queue. *)
Definition left_by (e : event) (app : Z) (l : list event) : Prop :=
  Forall (fun x => ev_priority x = 1000 * app + (1000 * ev_primary e - ev_priority e) /\ ev_skill x = ev_skill e
                   /\ ev_secondary x = None /\ app <= ev_primary x /\ (List.length (ev_targets e) = 1%nat -> ev_primary x = app)) l.

Lemma snapshot_two_fold n t app pr s m sn id jrc cc l : forall k se qu qu' x y,
  0 <= k ->
  foldM (snapshot_target n t app pr s m sn id jrc cc) (enum_from k l) (se, qu) = Ok x ->
  foldM (snapshot_target n t app pr s m sn id jrc cc) (enum_from k l) (se, qu') = Ok y ->
  fst x = fst y
  /\ exists news, Permutation (q_heap (snd x)) (news ++ q_heap qu) /\ Permutation (q_heap (snd y)) (news ++ q_heap qu')
       /\ (q_inv qu -> q_inv (snd x)) /\ (q_inv qu' -> q_inv (snd y))
       /\ List.length news = List.length l
       /\ Forall (fun x => ev_priority x = pr /\ ev_skill x = s /\ ev_secondary x = None /\ app <= ev_primary x /\ (n = 1%nat -> ev_primary x = app)) news.
Proof.
  induction l as [|tg l IH]; intros k se qu qu' x y K H H'.
  - cbn in H, H'. injection H as <-. injection H' as <-. cbn. split; [reflexivity|]. exists []. repeat split; auto.
  - cbn [enum_from foldM] in H, H'.
    apply bind_ok in H as ([se1 q1] & A & H). apply bind_ok in H' as ([se1' q1'] & A' & H').
    unfold snapshot_target in A, A'. cbv zeta in A, A'.
    apply bind_ok in A as ([[se2 sn1] m2] & A1 & A). apply bind_ok in A' as ([[se2' sn1'] m2'] & A1' & A').
    rewrite A1 in A1'. injection A1' as <- <- <-. clear A1.
    apply bind_ok in A as (q2 & B & A). apply bind_ok in A' as (q2' & B' & A'). injection A as <- <-. injection A' as <- <-.
    rewrite q_add_eq in B, B'. apply api_add_spec in B as (P & _ & I). apply api_add_spec in B' as (P' & _ & I').
    cbn [stored_event ad_priority ad_primary ad_secondary ad_skill ad_modifier ad_snap ad_id ad_jr_added ad_jr_cond ad_combo_cond ad_targets] in P, P'.
    assert (K1 : 0 <= k + 1) by lia.
    destruct (IH _ _ _ _ _ _ K1 H H') as (E1 & news & Q & Q' & J & J' & Ln & F). split; [exact E1|].
    eexists (news ++ [_])%list. rewrite <- !app_assoc. cbn [List.app].
    split; [rewrite Q; apply Permutation_app_head, P|]. split; [rewrite Q'; apply Permutation_app_head, P'|].
    split; [auto|]. split; [auto|]. split; [rewrite app_length; cbn; lia|].
    apply Forall_app. split; [exact F|]. constructor; [|constructor]. cbn. repeat split; [apply target_time_ge, K|].
    intros ->. reflexivity.
Qed.

Lemma snapshot_two tk qu qu' e app x y :
  snapshot_event tk qu e app = Ok x -> snapshot_event tk qu' e app = Ok y ->
  fst x = fst y
  /\ exists news, Permutation (q_heap (snd x)) (news ++ q_heap qu) /\ Permutation (q_heap (snd y)) (news ++ q_heap qu')
       /\ (q_inv qu -> q_inv (snd x)) /\ (q_inv qu' -> q_inv (snd y))
       /\ List.length news = List.length (ev_targets e) /\ left_by e app news.
Proof.
  unfold snapshot_event. cbv zeta. intros H H'.
  apply bind_ok in H as ([[se1 sn0] m1] & A & H). rewrite A in H'. cbn [bind] in H'. clear A.
  destruct (resource_conditional _ _ _ _ _) as [tk2 m2].
  apply bind_ok in H as ([tk3 m3] & A & H). rewrite A in H'. cbn [bind] in H'. clear A.
  apply bind_ok in H as (tk4 & A & H). rewrite A in H'. cbn [bind] in H'. clear A.
  apply bind_ok in H as ([se2 q2] & A & H). apply bind_ok in H' as ([se2' q2'] & A' & H'). injection H as <-. injection H' as <-.
  destruct (snapshot_two_fold _ _ _ _ _ _ _ _ _ _ _ _ _ _ _ _ _ (Z.le_refl 0) A A') as (E & news & P & P' & I & I' & L & F).
  cbn [fst snd] in *. subst se2'. split; [reflexivity|]. exists news. repeat (split; [assumption|]).
  eapply Forall_impl; [|exact F]. cbn. intros z (F1 & F2 & F3 & F4 & F5). unfold time_to_prio in F1. repeat split; auto.
Qed.

Lemma step_two tk qu qu' out out' e x y :
  damage_step tk qu out e = Ok x -> damage_step tk qu' out' e = Ok y ->
  fst (fst x) = fst (fst y)
  /\ exists news is,
       Permutation (q_heap (snd (fst x))) (news ++ q_heap qu) /\ Permutation (q_heap (snd (fst y))) (news ++ q_heap qu')
       /\ (q_inv qu -> q_inv (snd (fst x))) /\ (q_inv qu' -> q_inv (snd (fst y)))
       /\ Permutation (snd x) (is ++ out) /\ Permutation (snd y) (is ++ out') /\ Forall (fun i => ev_primary e <= di_time i) is
       /\ match ev_secondary e with None => news = [] | Some app => List.length news = List.length (ev_targets e) /\ left_by e app news end.
Proof.
  unfold damage_step. cbv zeta. destruct (ev_secondary e) as [app|]; intros H H'.
  - apply bind_ok in H as ([tk1 q1] & A & H). apply bind_ok in H' as ([tk1' q1'] & A' & H'). injection H as <-. injection H' as <-.
    destruct (snapshot_two _ _ _ _ _ _ _ A A') as (E & news & P & P' & I & I' & L & F). cbn [fst snd] in *. split; [exact E|].
    exists news, []. repeat (split; [assumption || reflexivity|]). split; [constructor|]. split; assumption.
  - apply bind_ok in H as ([tk1 o1] & A & H). apply bind_ok in H' as ([tk1' o1'] & A' & H'). injection H as <-. injection H' as <-.
    destruct (application_two _ _ _ _ _ _ A A') as (E & is & P & P' & F). cbn [fst snd] in *. split; [exact E|].
    exists [], is. repeat (split; [assumption || reflexivity || auto|]). reflexivity.
Qed.

(** ** The loop once everything left is late *)

Definition late (T : Z) (e : event) : Prop := T <= ev_primary e /\ (forall app, ev_secondary e = Some app -> T <= app).

Lemma forall_perm {A} (P : A -> Prop) l m : Permutation l m -> Forall P l -> Forall P m.
Proof. intros H F. rewrite Forall_forall in *. intros x I. apply F. eapply Permutation_in; [apply Permutation_sym, H | exact I]. Qed.

Lemma loop_late T fuel : forall tk qu out tk' qu' out',
  q_inv qu -> Forall (late T) (q_heap qu) -> damage_loop fuel tk qu out = Ok (tk', qu', out') ->
  exists is, Permutation out' (is ++ out) /\ Forall (fun i => T <= di_time i) is.
Proof.
  induction fuel as [|fuel IH]; intros tk qu out tk' qu' out' I F H; cbn [damage_loop] in H.
  - destruct (q_is_empty qu); [injection H as <- <- <-; exists []; auto | discriminate H].
  - destruct (q_is_empty qu); [injection H as <- <- <-; exists []; auto|].
    apply bind_ok in H as ([e q1] & G & H). apply bind_ok in H as ([[tk1 q2] o1] & S & H).
    apply q_get_next_spec in G as (P & _ & I1 & _); [|exact I].
    apply (forall_perm _ _ _ P) in F. inversion F as [|? ? [F1 F2] F3]; subst.
    destruct (step_two _ _ _ _ _ _ _ _ S S) as (_ & news & is & Q & _ & J & _ & R & _ & L & N). cbn [fst snd] in *.
    apply IH in H; [|exact (J I1)|].
    + destruct H as (is' & P' & F'). exists (is' ++ is)%list. rewrite P', R, <- app_assoc. split; [reflexivity|].
      apply Forall_app. split; [exact F'|]. eapply Forall_impl; [|exact L]. cbn. intros i. lia.
    + apply (forall_perm _ _ _ (Permutation_sym Q)), Forall_app. split; [|exact F3].
      destruct (ev_secondary e) as [app|]; [|subst news; constructor]. destruct N as (_ & N). specialize (F2 app eq_refl).
      eapply Forall_impl; [|exact N]. intros x (_ & _ & E & A & _). split; [lia|]. rewrite E. discriminate.
Qed.

(** ** Two loops side by side *)

Lemma key_le_same a b : key_le a b -> key_le b a -> ev_priority a = ev_priority b /\ sk_name (ev_skill a) = sk_name (ev_skill b).
Proof.
  unfold key_le. intros [H|(H & N)] [H'|(H' & N')]; try lia. split; [lia|].
  rewrite String.compare_antisym in N'. destruct (String.compare (sk_name (ev_skill a)) (sk_name (ev_skill b))) eqn:E;
    [apply String.compare_eq_iff, E | destruct (N' eq_refl) | destruct (N eq_refl)].
Qed.

Lemma perm_flat_map {A B} (f : A -> list B) l m : Permutation l m -> Permutation (flat_map f l) (flat_map f m).
Proof.
  induction 1 as [|x l m P IH|x y l|l m n P1 IH1 P2 IH2]; cbn.
  - constructor.
  - apply Permutation_app_head, IH.
  - rewrite !app_assoc. apply Permutation_app_tail, Permutation_app_comm.
  - etransitivity; eassumption.
Qed.
Lemma places_perm l m : Permutation l m -> distinct_places l -> distinct_places m.
Proof. unfold distinct_places. intros P. apply Permutation_NoDup, perm_flat_map, P. Qed.
Lemma nodup_app_r {A} (l m : list A) : NoDup (l ++ m) -> NoDup m.
Proof. induction l as [|x l IH]; cbn; [auto|]. intros H. inversion H; auto. Qed.

Lemma place_unique l e e' : distinct_places l -> In e l -> In e' l ->
  ev_priority e = ev_priority e' -> sk_name (ev_skill e) = sk_name (ev_skill e') -> e = e'.
Proof.
  unfold distinct_places. induction l as [|x l IH]; intros N I I' E1 E2; [destruct I|]. cbn [flat_map] in N.
  assert (O : forall y, In y l -> ev_priority x = ev_priority y -> sk_name (ev_skill x) = sk_name (ev_skill y) -> False).
  { intros y J F1 F2. unfold places at 1 in N. cbn [List.app] in N. inversion N as [|? ? N1 _]; subst. apply N1, in_or_app. right.
    apply in_flat_map. exists y. split; [exact J|]. left. rewrite F1, F2. reflexivity. }
  destruct I as [<-|I], I' as [<-|I']; auto.
  - destruct (O _ I' E1 E2).
  - destruct (O _ I (eq_sym E1) (eq_sym E2)).
  - apply IH; auto. apply nodup_app_r in N. exact N.
Qed.

(** What is left after a step is as orderly as what was there. *)
Lemma step_orderly e rest news :
  Forall orderly (e :: rest) -> distinct_places (e :: rest) ->
  match ev_secondary e with None => news = [] | Some app => List.length news = List.length (ev_targets e) /\ left_by e app news end ->
  Forall orderly (news ++ rest) /\ distinct_places (news ++ rest).
Proof.
  intros O D N. inversion O as [|? ? [O1 O2] O3]; subst. unfold distinct_places in *. cbn [flat_map] in D. unfold places at 1 in D.
  destruct (ev_secondary e) as [app|].
  - destruct N as (Ln & F). destruct (O2 app eq_refl) as (A & One). rewrite One in Ln.
    destruct news as [|x [|]]; try discriminate Ln. inversion F as [|? ? (F1 & F2 & F3 & F4 & F5) _]; subst. specialize (F5 One).
    cbn [List.app flat_map] in *. split.
    + constructor; [|exact O3]. split; [rewrite F1, F5; lia|]. rewrite F3. discriminate.
    + unfold places at 1. rewrite F3, F1, F2. cbn [List.app]. inversion D; assumption.
  - subst news. cbn [List.app] in *. split; [exact O3|]. inversion D; assumption.
Qed.

Lemma orderly_late T l : Forall orderly l -> (forall e, In e l -> T <= ev_primary e) -> Forall (late T) l.
Proof.
  rewrite !Forall_forall. intros O L e I. specialize (L e I). destruct (O e I) as [_ O2]. split; [exact L|].
  intros app E. destruct (O2 app E). lia.
Qed.

Lemma hits_perm T l m : Permutation l m -> Permutation (hits_before T l) (hits_before T m).
Proof.
  unfold hits_before. induction 1 as [|x l m P IH|x y l|l m n P1 IH1 P2 IH2]; cbn.
  - constructor.
  - destruct (_ <? _); auto.
  - destruct (di_time x <? T), (di_time y <? T); try reflexivity. apply perm_swap.
  - etransitivity; eassumption.
Qed.
Lemma hits_late T l m : Forall (fun i => T <= di_time i) l -> hits_before T (l ++ m) = hits_before T m.
Proof.
  unfold hits_before. induction 1 as [|x l H F IH]; cbn; [reflexivity|]. destruct (Z.ltb_spec (di_time x) T); [lia | exact IH].
Qed.

Lemma empty_heap qu : q_is_empty qu = true -> q_heap qu = [].
Proof. unfold q_is_empty. destruct (q_heap qu); [reflexivity | discriminate]. Qed.

Lemma loops_agree T fuel : forall fuel' tk qu qu' out out' C L L' x y,
  q_inv qu -> q_inv qu' -> Permutation (q_heap qu) (C ++ L) -> Permutation (q_heap qu') (C ++ L') ->
  (forall e, In e L -> T <= ev_primary e) -> (forall e, In e L' -> T <= ev_primary e) ->
  Forall orderly (q_heap qu) -> Forall orderly (q_heap qu') -> distinct_places (q_heap qu) -> distinct_places (q_heap qu') ->
  Permutation out out' ->
  damage_loop fuel tk qu out = Ok x -> damage_loop fuel' tk qu' out' = Ok y ->
  Permutation (hits_before T (snd x)) (hits_before T (snd y)).
Proof.
  induction fuel as [|fuel IH]; intros fuel' tk qu qu' out out' C L L' x y I I' P P' FL FL' O O' D D' PO H H'.
  all: assert (Late : (forall e, In e C -> T <= ev_primary e) ->
    forall f1 f2, damage_loop f1 tk qu out = Ok x -> damage_loop f2 tk qu' out' = Ok y -> Permutation (hits_before T (snd x)) (hits_before T (snd y))).
  1,3: intros FC f1 f2 R R'; destruct x as [[tkx qx] ox], y as [[tky qy] oy];
    destruct (loop_late T _ _ _ _ _ _ _ I (orderly_late T _ O ltac:(intros e J; apply (Permutation_in _ P), in_app_or in J as [J|J]; auto)) R) as (is & Q & F);
    destruct (loop_late T _ _ _ _ _ _ _ I' (orderly_late T _ O' ltac:(intros e J; apply (Permutation_in _ P'), in_app_or in J as [J|J]; auto)) R') as (is' & Q' & F');
    cbn [snd]; rewrite (hits_perm T _ _ Q), (hits_perm T _ _ Q'), !hits_late by assumption; apply hits_perm, PO.
  - cbn [damage_loop] in H. destruct (q_is_empty qu) eqn:Em; [|discriminate H].
    apply empty_heap in Em. rewrite Em in P. apply Permutation_nil in P. apply app_eq_nil in P as [-> _].
    apply (Late ltac:(intros e []) 0%nat fuel'); [|exact H']. cbn [damage_loop]. unfold q_is_empty. rewrite Em. exact H.
  - cbn [damage_loop] in H. destruct (q_is_empty qu) eqn:Em.
    { apply empty_heap in Em. rewrite Em in P. apply Permutation_nil in P. apply app_eq_nil in P as [-> _].
      apply (Late ltac:(intros e []) 0%nat fuel'); [|exact H']. cbn [damage_loop]. unfold q_is_empty. rewrite Em. exact H. }
    destruct fuel' as [|fuel']; cbn [damage_loop] in H'; destruct (q_is_empty qu') eqn:Em'; try discriminate H'.
    1,2: apply empty_heap in Em'; rewrite Em' in P'; apply Permutation_nil in P'; apply app_eq_nil in P' as [-> _];
      apply (Late ltac:(intros e []) (S fuel) 0%nat); cbn [damage_loop]; [rewrite Em; exact H | unfold q_is_empty; rewrite Em'; exact H'].
    assert (Late' := fun FC => Late FC (S fuel) (S fuel')). cbn [damage_loop] in Late'. rewrite Em, Em' in Late'.
    specialize (fun FC => Late' FC H H'). clear Late.
    apply bind_ok in H as ([e q1] & G & H). apply bind_ok in H' as ([e' q1'] & G' & H').
    apply q_get_next_spec in G as (Q & _ & I1 & M); [|exact I]. apply q_get_next_spec in G' as (Q' & _ & I1' & M'); [|exact I'].
    assert (Oe : orderly e) by (rewrite Forall_forall in O; apply O, (Permutation_in _ (Permutation_sym Q)); left; reflexivity).
    assert (Oe' : orderly e') by (rewrite Forall_forall in O'; apply O', (Permutation_in _ (Permutation_sym Q')); left; reflexivity).
    destruct (Z_lt_le_dec (ev_primary e) T) as [Te|Te].
    2:{ apply Late'. intros z J. assert (Jz : In z (q_heap qu)) by (apply (Permutation_in _ (Permutation_sym P)), in_or_app; auto).
        specialize (M z Jz). rewrite Forall_forall in O. destruct (O z Jz) as [Oz _]. destruct Oe as [Oe _].
        destruct M as [M|[M _]]; lia. }
    clear Late'.
    assert (Je : In e C).
    { assert (J : In e (C ++ L)) by (apply (Permutation_in _ P), (Permutation_in _ (Permutation_sym Q)); left; reflexivity).
      apply in_app_or in J as [J|J]; [exact J|]. apply FL in J. lia. }
    assert (M1 : key_le e' e) by (apply M', (Permutation_in _ (Permutation_sym P')), in_or_app; auto).
    assert (Je' : In e' C).
    { assert (J : In e' (C ++ L')) by (apply (Permutation_in _ P'), (Permutation_in _ (Permutation_sym Q')); left; reflexivity).
      apply in_app_or in J as [J|J]; [exact J|]. apply FL' in J. destruct Oe as [Oe _], Oe' as [Oe' _]. destruct M1 as [M1|[M1 _]]; lia. }
    assert (M2 : key_le e e') by (apply M, (Permutation_in _ (Permutation_sym P)), in_or_app; auto).
    destruct (key_le_same _ _ M1 M2) as [E1 E2].
    assert (e' = e).
    { apply (place_unique _ _ _ D); auto; apply (Permutation_in _ (Permutation_sym P)), in_or_app; auto. }
    subst e'. clear E1 E2 M1 M2 Je' Oe'.
    apply bind_ok in H as ([[tk1 q2] o1] & S & H). apply bind_ok in H' as ([[tk1' q2'] o1'] & S' & H').
    destruct (step_two _ _ _ _ _ _ _ _ S S') as (E & news & is & R & R' & K & K' & W & W' & _ & N). cbn [fst snd] in *. subst tk1'.
    apply in_split in Je as (C1 & C2 & ->).
    assert (Q1 : Permutation (q_heap q1) ((C1 ++ C2) ++ L)).
    { apply (Permutation_cons_inv (a := e)). rewrite <- Q, P. cbn. rewrite <- !app_assoc. cbn. symmetry. apply Permutation_middle. }
    assert (Q1' : Permutation (q_heap q1') ((C1 ++ C2) ++ L')).
    { apply (Permutation_cons_inv (a := e)). rewrite <- Q', P'. cbn. rewrite <- !app_assoc. cbn. symmetry. apply Permutation_middle. }
    destruct (step_orderly e (q_heap q1) news) as [O1 D1]; [exact (forall_perm _ _ _ Q O) | exact (places_perm _ _ Q D) | exact N|].
    destruct (step_orderly e (q_heap q1') news) as [O1' D1']; [exact (forall_perm _ _ _ Q' O') | exact (places_perm _ _ Q' D') | exact N|].
    apply (IH fuel' tk1 q2 q2' o1 o1' (news ++ C1 ++ C2)%list L L' x y); auto.
    + rewrite R, <- app_assoc. apply Permutation_app_head, Q1.
    + rewrite R', <- app_assoc. apply Permutation_app_head, Q1'.
    + exact (forall_perm _ _ _ (Permutation_sym R) O1).
    + exact (forall_perm _ _ _ (Permutation_sym R') O1').
    + exact (places_perm _ _ (Permutation_sym R) D1).
    + exact (places_perm _ _ (Permutation_sym R') D1').
    + rewrite W, W'. apply Permutation_app_head, PO.
Qed.

Lemma begun_split T l : Permutation l (begun_before T l ++ filter (fun e => negb (ev_primary e <? T)) l).
Proof.
  unfold begun_before. induction l as [|x l IH]; cbn; [constructor|]. destruct (_ <? _); cbn; [constructor; exact IH|].
  apply Permutation_cons_app, IH.
Qed.

Theorem damage_before tk qu qu' tk1 tk1' q1 q1' l l' T :
  q_inv qu -> q_inv qu' -> Forall orderly (q_heap qu) -> Forall orderly (q_heap qu') ->
  distinct_places (q_heap qu) -> distinct_places (q_heap qu') ->
  Permutation (begun_before T (q_heap qu)) (begun_before T (q_heap qu')) ->
  get_damage_instances tk qu = Ok (tk1, q1, l) -> get_damage_instances tk qu' = Ok (tk1', q1', l') ->
  Permutation (hits_before T l) (hits_before T l').
Proof.
  unfold get_damage_instances. intros I I' O O' D D' B H H'.
  apply bind_ok in H as ([[tka qa] oa] & R & H). apply bind_ok in H' as ([[tkb qb] ob] & R' & H').
  injection H as <- <- <-. injection H' as <- <- <-.
  etransitivity; [apply hits_perm, sort_by_perm|]. etransitivity; [|apply hits_perm, Permutation_sym, sort_by_perm].
  refine (loops_agree T _ _ _ _ _ _ _ (begun_before T (q_heap qu)) _ _ _ _ I I' (begun_split T _)
           (Permutation_trans (begun_split T _) (Permutation_app_tail _ (Permutation_sym B))) _ _ O O' D D' (Permutation_refl []) R R');
    intros e J; apply filter_In in J as [_ J]; destruct (Z.ltb_spec (ev_primary e) T); cbn in J; (discriminate || assumption).
Qed.

(** ** Ids *)

Lemma begun_first T out : StronglySorted key_le out -> Forall orderly out ->
  out = (begun_before T out ++ filter (fun e => negb (ev_primary e <? T)) out)%list.
Proof.
  unfold begun_before. induction 1 as [|e l S IH F]; intros O; [reflexivity|]. inversion O as [|? ? [Oe _] Ol]; subst. cbn [filter].
  destruct (Z.ltb_spec (ev_primary e) T) as [L|L]; cbn [negb List.app]; [f_equal; apply IH, Ol|].
  assert (A : forall x, In x l -> T <= ev_primary x).
  { intros x Hx. rewrite Forall_forall in F, Ol. destruct (Ol x Hx) as [Ox _]. destruct (F x Hx) as [K|[K _]]; lia. }
  clear IH F Ol S O. assert (filter (fun e0 => ev_primary e0 <? T) l = []) as ->.
  { induction l as [|x l IH]; [reflexivity|]. cbn. destruct (Z.ltb_spec (ev_primary x) T) as [K|K]; [specialize (A x (or_introl eq_refl)); lia|].
    apply IH. intros y Hy. apply A. right; exact Hy. }
  cbn. f_equal. induction l as [|x l IH]; [reflexivity|]. cbn. destruct (Z.ltb_spec (ev_primary x) T) as [K|K]; [specialize (A x (or_introl eq_refl)); lia|].
  cbn. f_equal. apply IH. intros y Hy. apply A. right; exact Hy.
Qed.

Lemma same_order l m : StronglySorted key_le l -> StronglySorted key_le m -> distinct_places l -> Permutation l m -> l = m.
Proof.
  intros S; revert m. induction S as [|a l S IH F]; intros m Sm D P.
  - symmetry. apply Permutation_nil, P.
  - destruct Sm as [|b m Sm Fm]; [apply Permutation_sym, Permutation_nil_cons in P; destruct P|].
    assert (a = b).
    { pose proof (Permutation_in a P (or_introl eq_refl)) as Ha. pose proof (Permutation_in b (Permutation_sym P) (or_introl eq_refl)) as Hb.
      assert (K1 : key_le a b) by (destruct Hb as [->|Hb]; [apply key_le_refl | rewrite Forall_forall in F; auto]).
      assert (K2 : key_le b a) by (destruct Ha as [->|Ha]; [apply key_le_refl | rewrite Forall_forall in Fm; auto]).
      destruct (key_le_same _ _ K1 K2). eapply place_unique; [exact D | left; reflexivity | exact Hb | assumption | assumption]. }
    subst b. f_equal. apply IH; [exact Sm | | eapply Permutation_cons_inv, P].
    unfold distinct_places in *. cbn [flat_map] in D. apply nodup_app_r in D. exact D.
Qed.

Lemma nodup_app_l {A} (l m : list A) : NoDup (l ++ m) -> NoDup l.
Proof.
  induction l as [|x l IH]; cbn; [constructor|]. intros H. inversion H; subst. constructor; [|auto]. intros J. apply H2, in_or_app; auto.
Qed.
Lemma orderly_anon e : orderly (anon e) <-> orderly e. Proof. reflexivity. Qed.
Lemma places_anon l : flat_map places (map anon l) = flat_map places l.
Proof. induction l as [|x l IH]; [reflexivity|]. cbn [map flat_map]. rewrite IH. reflexivity. Qed.
Lemma begun_anon T l : begun_before T (map anon l) = map anon (begun_before T l).
Proof. unfold begun_before. induction l as [|x l IH]; [reflexivity|]. cbn. destruct (_ <? _); cbn; rewrite IH; reflexivity. Qed.
Lemma anon_inj e e' : anon e = anon e' -> ev_id e = ev_id e' -> e = e'.
Proof. destruct e, e'. unfold anon. cbn. intros H <-. injection H. intros. congruence. Qed.
Lemma anon_list l : forall m, map anon l = map anon m -> map ev_id l = map ev_id m -> l = m.
Proof.
  induction l as [|x l IH]; intros [|y m]; cbn; try discriminate; [reflexivity|]. intros H H'.
  pose proof (f_equal (hd (anon x)) H) as H1. pose proof (f_equal (@tl _) H) as H2. injection H' as H3 H4. cbn in H1, H2.
  f_equal; [apply anon_inj; assumption | apply IH; assumption].
Qed.
Lemma sorted_prefix {A} (R : A -> A -> Prop) l m : StronglySorted R (l ++ m) -> StronglySorted R l.
Proof. induction l as [|x l IH]; cbn; [constructor|]. intros H. inversion H as [|? ? S F]; subst. constructor; [auto|]. apply Forall_app in F as [F _]. exact F. Qed.
Lemma sorted_anon l : StronglySorted key_le l -> StronglySorted key_le (map anon l).
Proof. induction 1 as [|x l S IH F]; cbn; constructor; [exact IH|]. apply Forall_map. exact F. Qed.

Lemma first_ids T l out : Permutation l out -> Forall orderly l -> StronglySorted key_le out -> map ev_id out = map Z.of_nat (seq 0 (List.length out)) ->
  map ev_id (begun_before T out) = map Z.of_nat (seq 0 (List.length (begun_before T out))) /\ StronglySorted key_le (begun_before T out).
Proof.
  intros P O S I. pose proof (begun_first T out S (forall_perm _ _ _ P O)) as E.
  set (m := filter (fun e => negb (ev_primary e <? T)) out) in *. set (p := begun_before T out) in *.
  split; [|rewrite E in S; eapply sorted_prefix, S].
  rewrite E, map_app, app_length, seq_app, map_app in I. apply (f_equal (firstn (List.length p))) in I.
  rewrite !firstn_app, !map_length, !seq_length, Nat.sub_diag in I. cbn in I. rewrite !app_nil_r in I.
  rewrite !firstn_all2 in I by (rewrite map_length, ?seq_length; reflexivity). exact I.
Qed.

Lemma ids_agree T l l' :
  numbered_ids l -> numbered_ids l' -> Forall orderly l -> Forall orderly l' -> distinct_places l ->
  Permutation (begun_before T (map anon l)) (begun_before T (map anon l')) ->
  Permutation (begun_before T l) (begun_before T l').
Proof.
  intros (out & P & S & I) (out' & P' & S' & I') O O' D B.
  destruct (first_ids T l out P O S I) as (J & R). destruct (first_ids T l' out' P' O' S' I') as (J' & R').
  assert (Pb : Permutation (begun_before T l) (begun_before T out)) by (apply perm_filter, P).
  assert (Pb' : Permutation (begun_before T l') (begun_before T out')) by (apply perm_filter, P').
  rewrite !begun_anon in B. rewrite Pb, Pb' in *. assert (begun_before T out = begun_before T out') as ->; [|reflexivity].
  apply anon_list.
  - apply same_order; [apply sorted_anon, R | apply sorted_anon, R' | | exact B].
    unfold distinct_places. rewrite places_anon. eapply nodup_app_l. rewrite <- flat_map_app.
    rewrite <- (begun_first T out S (forall_perm _ _ _ P O)). eapply places_perm; eassumption.
  - rewrite J, J'. apply Permutation_length in B. rewrite !map_length in B. rewrite B. reflexivity.
Qed.

Lemma timeline_orderly r : Forall orderly (timeline r) -> Forall orderly (q_heap (b_queue r)).
Proof. unfold timeline. rewrite Forall_map. intros H. exact H. Qed.
Lemma timeline_places r : distinct_places (timeline r) -> distinct_places (q_heap (b_queue r)).
Proof. unfold timeline, distinct_places. rewrite places_anon. auto. Qed.

Theorem damage_of_timelines b b' r r' T tk tk1 tk1' q1 q1' l l' :
  reachable b -> reachable b' -> get_skill_timing b = Ok r -> get_skill_timing b' = Ok r' ->
  Forall orderly (timeline r) -> Forall orderly (timeline r') -> distinct_places (timeline r) -> distinct_places (timeline r') ->
  Permutation (begun_before T (timeline r)) (begun_before T (timeline r')) ->
  get_damage_instances tk (b_queue r) = Ok (tk1, q1, l) -> get_damage_instances tk (b_queue r') = Ok (tk1', q1', l') ->
  Permutation (hits_before T l) (hits_before T l').
Proof.
  intros R R' H H' O O' D D' B G G'.
  destruct (timeline_prepared _ _ R H) as (I & _). destruct (timeline_prepared _ _ R' H') as (I' & _).
  apply timeline_orderly in O, O'. apply timeline_places in D, D'.
  eapply (damage_before tk (b_queue r) (b_queue r') tk1 tk1' q1 q1' l l' T); try eassumption.
  exact (ids_agree T _ _ (timeline_ids _ _ R H) (timeline_ids _ _ R' H') O O' D B).
Qed.

(** ** Rotations that go on *)

Lemma no_dots_log b slog tlog : rotation_played b slog tlog -> no_dots b -> flat_map press_dots (slog ++ tlog) = [].
Proof.
  intros R N. destruct (flat_map press_dots (slog ++ tlog)) as [|x l] eqn:E; [reflexivity|]. exfalso.
  assert (Hx : In x (flat_map press_dots (slog ++ tlog))) by (rewrite E; left; reflexivity). pose proof (log_dots_dot (slog ++ tlog) x Hx) as Hd.
  apply in_flat_map in Hx as (p & Hp & Hx). apply press_dots_targets in Hx as (_ & _ & fu & Hfu & Ex).
  assert (W : well_played (b_stats b) p) by (destruct R as (_ & _ & _ & W & _); rewrite Forall_forall in W; apply W, Hp).
  destruct W as (_ & _ & _ & Wf & _). apply Hd. rewrite Ex. eapply N; [eapply played_skill; eassumption | exact Wf | exact Hfu].
Qed.

(** Nothing else is on the timeline. *)
Lemma undotted_timeline b r : built b -> b_autos b = false -> b_fight_start b <> None -> no_dots b -> get_skill_timing b = Ok r ->
  exists slog tlog evs, (sequence_log b = Ok slog /\ timeds_log b = Ok tlog) /\ rotation_played b slog tlog
    /\ downtimed (windows_of b) (map entry (flat_map press_entries (slog ++ tlog))) evs /\ Permutation (timeline r) evs
    /\ in_time_order (map (press_record (st_job (b_stats b))) (slog ++ tlog)) (get_button_press_timing r).
Proof.
  intros B A N Nd H. apply run_logs in H; [|apply reachable_dots, built_reachable, B].
  destruct H as (slog & tlog & q2 & autos & d & H). cbv zeta in H. destruct H as (L & P & _ & _ & Au & M & Ev & _ & Sh & _).
  rewrite (Au A), (no_dots_log b slog tlog P Nd) in *. destruct (built_fresh b B) as (Bd & _). rewrite Bd in *. cbn [fold_left] in *.
  assert (d = 0) as -> by (unfold moves in M; destruct (b_fight_start b); [auto | congruence]).
  rewrite earlier_none, press_earlier_none in *. change (all_dot_calls (b_snap_dots b) (if b_ignore_trailing b then get_last_event_time q2 else None) []) with (@nil add_call) in Ev.
  rewrite !app_nil_r in Ev. destruct Ev as (evs & Dt & Pe). exists slog, tlog, evs. auto.
Qed.

Lemma entry_orderly b slog tlog p c :
  rotation_played b slog tlog -> nonneg_delays b -> nonneg_follow_ups b -> few_follow_ups b -> In p (slog ++ tlog) -> In c (press_entries p) ->
  pl_time p <= ad_primary c /\ -500 < ad_priority c - 1000 * ad_primary c < 500 /\ forall a, ad_secondary c = Some a -> ad_primary c <= a.
Proof.
  intros R N F W Hp Hc. pose proof (press_order _ _ _ _ R N Hp) as O.
  assert (Wp : well_played (b_stats b) p) by (destruct R as (_ & _ & _ & Wp & _); rewrite Forall_forall in Wp; apply Wp, Hp).
  destruct Wp as (_ & _ & _ & Wf & _). pose proof (played_skill _ _ _ _ R Hp) as Sk.
  destruct Hc as [<-|Hc].
  - cbn. split; [lia|]. split; [lia|]. intros a E. injection E as <-. lia.
  - assert (K : exists k fu, 1 <= k < 500 /\ In fu (pl_follow_ups p) /\ In c (follow_up_entries p k fu)).
    { specialize (W _ _ _ Sk Wf). revert Hc W. clear. generalize (pl_follow_ups p).
      assert (G : forall l k, In c (numbered (follow_up_entries p) k l) -> exists k' fu, k <= k' < k + Z.of_nat (List.length l) /\ In fu l /\ In c (follow_up_entries p k' fu)).
      { induction l as [|x l IH]; intros k H; [destruct H|]. cbn [numbered] in H. apply in_app_or in H as [H|H].
        - exists k, x. split; [cbn [List.length]; lia|]. split; [left; reflexivity | exact H].
        - destruct (IH _ H) as (k' & fu & K & I & J). exists k', fu. split; [cbn [List.length]; lia|]. split; [right; exact I | exact J]. }
      intros l Hc W. destruct (G _ _ Hc) as (k & fu & K & I & J). exists k, fu. split; [|auto]. unfold follow_up in *. lia. }
    destruct K as (k & fu & K & I & J). unfold follow_up_entries in J. destruct (fu_dot fu); [destruct J|]. destruct J as [<-|[]].
    pose proof (F _ _ _ _ Sk Wf I) as D0. cbn. destruct (fu_snap_buffs fu || fu_snap_debuffs fu).
    + split; [lia|]. split; [lia|]. intros a E. injection E as <-. lia.
    + split; [lia|]. split; [lia|]. intros a E. injection E as <-. lia.
Qed.

Lemma undotted_orderly b r : built b -> b_autos b = false -> b_fight_start b <> None -> no_dots b ->
  nonneg_delays b -> nonneg_follow_ups b -> few_follow_ups b -> get_skill_timing b = Ok r -> delayed_single (timeline r) ->
  Forall orderly (timeline r).
Proof.
  intros B A N Nd D F W H One. destruct (undotted_timeline b r B A N Nd H) as (slog & tlog & evs & _ & P & Dt & Pe & _).
  apply Forall_forall. intros e He. assert (One' := One e He). apply (Permutation_in _ Pe) in He.
  destruct (downtimed_in _ _ _ _ Dt He) as (e0 & tg & H0 & ->). apply in_map_iff in H0 as (c & <- & Hc). apply in_flat_map in Hc as (p & Hp & Hc).
  destruct (entry_orderly _ _ _ _ _ P D F W Hp Hc) as (_ & X & Y). split; [exact X|]. intros a E. split; [|apply One'; congruence].
  apply Y. cbn in E. destruct (ad_secondary c) as [t|]; [|discriminate E]. destruct (Z.eq_dec t (ad_primary c)); [discriminate E | exact E].
Qed.

Lemma undotted_begun b b' r r' T new :
  built b -> distinct_times b -> continued b b' -> b_fight_start b <> None -> b_autos b = false ->
  no_dots b' -> nonneg_delays b' -> nonneg_follow_ups b' -> few_follow_ups b' ->
  get_skill_timing b = Ok r -> get_skill_timing b' = Ok r' ->
  more_presses r r' new -> (forall p, In p new -> T <= pr_time p) ->
  exists more, Permutation (timeline r') (timeline r ++ more) /\ forall e, In e more -> T <= ev_primary e.
Proof.
  intros B D C N NA Nd ND NF NW H H' Mp Late. destruct (continued_goes b b' C) as (ms & mt & G).
  pose proof (continued_built b b' C B) as B'. pose proof (go_settings _ _ _ _ G) as (S1 & S2 & S3 & S4 & S5 & S6 & _).
  assert (Nd0 : no_dots b).
  { intros s m fus fu Hs. apply Nd. unfold skills_of in *. rewrite (go_seq _ _ _ _ G), (go_timed _ _ _ _ G), !map_app, !in_app_iff in *. tauto. }
  destruct (undotted_timeline b r B NA N Nd0 H) as (slog & tlog & evs & (L1 & L2) & P & Dt & Pe & Sh).
  destruct (undotted_timeline b' r' B') as (slog' & tlog' & evs' & (L1' & L2') & P' & Dt' & Pe' & Sh'); [congruence | congruence | exact Nd | exact H'|].
  destruct (logs_go_on b b' ms mt slog tlog slog' tlog' G D L1 L2 L1' L2') as (nsq & nt & -> & ->). rewrite S1 in Sh'.
  assert (Pm0 : Permutation ((slog ++ nsq) ++ tlog ++ nt) ((slog ++ tlog) ++ nsq ++ nt)).
  { rewrite <- !app_assoc. apply Permutation_app_head. rewrite !app_assoc. apply Permutation_app_tail. apply Permutation_app_comm. }
  assert (La : forall p, In p (nsq ++ nt) -> T <= pl_time p).
  { destruct Sh as (_ & Sh & _). destruct Sh' as (_ & Sh' & _). unfold more_presses in Mp. rewrite <- Sh, <- Sh' in Mp.
    assert (Q : Permutation (map (press_record (st_job (b_stats b))) (nsq ++ nt)) new).
    { apply Permutation_app_inv_l with (l := map (press_record (st_job (b_stats b))) (slog ++ tlog)). rewrite <- Mp, <- map_app.
      apply Permutation_map. symmetry. exact Pm0. }
    intros p Hp. apply (Late (press_record (st_job (b_stats b)) p)). eapply Permutation_in; [exact Q|]. apply in_map, Hp. }
  assert (Pm : Permutation (map entry (flat_map press_entries ((slog ++ nsq) ++ tlog ++ nt)))
                 (map entry (flat_map press_entries (slog ++ tlog)) ++ map entry (flat_map press_entries (nsq ++ nt)))).
  { rewrite <- map_app, <- flat_map_app. apply Permutation_map, Permutation_flat_map, Pm0. }
  destruct (downtimed_perm _ _ _ Pm _ Dt') as (all' & Da' & Pa). apply downtimed_app_inv in Da' as (old' & more & -> & Do' & Dn).
  assert (old' = evs) as ->.
  { eapply downtimed_fun; [|exact Dt]. eapply downtimed_ext; [|exact Do']. intros e t He Ht.
    apply in_map_iff in He as (c & <- & Hc). rewrite entry_targets in Ht. apply in_flat_map in Hc as (p & Hp & Hc).
    eapply windows_go_on; [exact G|]. eapply played_targets; [exact B | exact P | exact Hp|]. eapply press_entry_targets; eassumption. }
  exists more. split; [rewrite Pe', Pa, Pe; reflexivity|].
  intros e He. destruct (downtimed_in _ _ _ _ Dn He) as (e0 & tg & H0 & ->). apply in_map_iff in H0 as (c & <- & Hc).
  apply in_flat_map in Hc as (p & Hp & Hc).
  assert (Hp' : In p ((slog ++ nsq) ++ tlog ++ nt)) by (rewrite !in_app_iff in *; tauto).
  destruct (entry_orderly _ _ _ _ _ P' ND NF NW Hp' Hc) as (X & _). specialize (La p Hp). cbn. lia.
Qed.

Theorem damage_of_continued b b' r r' T new tk tk1 tk1' q1 q1' l l' :
  built b -> distinct_times b -> continued b b' -> b_fight_start b <> None -> b_autos b = false ->
  no_dots b' -> nonneg_delays b' -> nonneg_follow_ups b' -> few_follow_ups b' ->
  get_skill_timing b = Ok r -> get_skill_timing b' = Ok r' ->
  delayed_single (timeline r') -> distinct_places (timeline r') ->
  more_presses r r' new -> (forall p, In p new -> T <= pr_time p) ->
  get_damage_instances tk (b_queue r) = Ok (tk1, q1, l) -> get_damage_instances tk (b_queue r') = Ok (tk1', q1', l') ->
  Permutation (hits_before T l) (hits_before T l').
Proof.
  intros B D C N NA Nd ND NF NW H H' One Di Mp Late Hd Hd'.
  destruct (undotted_begun b b' r r' T new B D C N NA Nd ND NF NW H H' Mp Late) as (more & P & F).
  pose proof (continued_built b b' C B) as B'. destruct (continued_goes b b' C) as (ms & mt & G).
  pose proof (go_settings _ _ _ _ G) as (S1 & S2 & S3 & S4 & S5 & S6 & _).
  assert (O' : Forall orderly (timeline r')) by (eapply undotted_orderly; [exact B' | congruence | congruence | eassumption..]).
  assert (O : Forall orderly (timeline r)) by (apply (forall_perm _ _ _ P), Forall_app in O' as [O' _]; exact O').
  eapply (damage_of_timelines b b' r r' T tk tk1 tk1' q1 q1' l l'); [apply built_reachable, B | apply built_reachable, B' | exact H | exact H' | exact O | exact O' | | exact Di | | exact Hd | exact Hd'].
  - apply (places_perm _ _ P) in Di. unfold distinct_places in *. rewrite flat_map_app in Di. eapply nodup_app_l, Di.
  - apply (perm_filter (fun e => ev_primary e <? T)) in P. unfold begun_before. rewrite P, filter_app.
    assert (filter (fun e => ev_primary e <? T) more = []) as ->; [|rewrite app_nil_r; reflexivity].
    clear - F. induction more as [|x l IH]; [reflexivity|]. cbn. destruct (Z.ltb_spec (ev_primary x) T) as [K|K]; [specialize (F x (or_introl eq_refl)); lia|].
    apply IH. intros y Hy. apply F. right; exact Hy.
Qed.
