(** * Facts for C48: what one rotation leaves behind for the next *)

From Coq Require Import ZArith QArith List String Bool Permutation Sorted Lia.
From Verif Require Import Base BaseFacts Heap HeapFacts Stats Strings Types Lookup StatusEffect JobResource Combo Library Events EventsFacts
  Rotation DamageBuild SpecQueue StatusFacts SpecDamage DamageFacts.
Import ListNotations.
Open Scope string_scope.
Open Scope Z_scope.

(** ** Trackers that answer alike *)

Definition same_se (a b : se_tracker) : Prop :=
  se_buffs a = se_buffs b /\ se_priority a = se_priority b /\ forall x, get_debuffs a x = get_debuffs b x.
Definition same_tk (a b : trackers) : Prop := same_se (tk_se a) (tk_se b) /\ tk_jr a = tk_jr b /\ tk_combo a = tk_combo b.

Definition alike {A B} (R : A -> B -> Prop) (x : res A) (y : res B) : Prop :=
  match x, y with Ok a, Ok b => R a b | Err e, Err e' => e = e' | _, _ => False end.
Lemma alike_bind {A B A' B'} (R : A -> B -> Prop) (S : A' -> B' -> Prop) x y f g :
  alike R x y -> (forall a b, R a b -> alike S (f a) (g b)) -> alike S (bind x f) (bind y g).
Proof. destruct x, y; cbn; try tauto; try (intros; congruence). auto. Qed.
Lemma alike_refl {A} (x : res A) : alike eq x x. Proof. destruct x; reflexivity. Qed.
Lemma alike_foldM {A S S'} (R : S -> S' -> Prop) (f : S -> A -> res S) (g : S' -> A -> res S') :
  (forall s s' a, R s s' -> alike R (f s a) (g s' a)) -> forall l s s', R s s' -> alike R (foldM f l s) (foldM g l s').
Proof.
  intros H l. induction l as [|a l IH]; intros s s' E; cbn; [exact E|].
  eapply alike_bind; [apply H, E|]. intros x y Hxy. apply IH, Hxy.
Qed.

Lemma same_set_buffs a b d : same_se a b -> same_se (set_buffs a d) (set_buffs b d).
Proof. intros (A & B & C). split; [reflexivity|]. split; [exact B | exact C]. Qed.
Lemma same_set_debuffs a b x d : same_se a b -> same_se (set_debuffs a x d) (set_debuffs b x d).
Proof.
  intros (A & B & C). split; [exact A|]. split; [exact B|]. intro y. rewrite !get_debuffs_set_debuffs.
  destruct (String.eqb y x); [reflexivity | apply C].
Qed.
Lemma same_expire t a b : same_se a b -> same_se (expire_status_effects t a) (expire_status_effects t b).
Proof.
  intros (A & B & C). split; [cbn; now rewrite A|]. split; [exact B|]. intro y. rewrite !get_debuffs_expire. now rewrite C.
Qed.
Lemma same_compile_buffs a b t s : same_se a b ->
  alike (fun x y => same_se (fst x) (fst y) /\ snd x = snd y) (compile_buffs a t s) (compile_buffs b t s).
Proof.
  intros S. pose proof S as (A & B & C). unfold compile_buffs. rewrite A, B. destruct (compile_effects _ _ _ _ _) as [[d r]|e]; [|reflexivity].
  cbn. split; [apply same_set_buffs, S | reflexivity].
Qed.
Lemma same_compile_debuffs a b t s x : same_se a b ->
  alike (fun x y => same_se (fst x) (fst y) /\ snd x = snd y) (compile_debuffs a t s x) (compile_debuffs b t s x).
Proof.
  intros S. pose proof S as (A & B & C). unfold compile_debuffs. rewrite B, C. destruct (compile_effects _ _ _ _ _) as [[d r]|e]; [|reflexivity].
  cbn. split; [apply same_set_debuffs, S | reflexivity].
Qed.
Lemma same_expire_named n t x a b : same_se a b -> same_se (expire_named_effect a n t x) (expire_named_effect b n t x).
Proof.
  intros S. pose proof S as (A & B & C). unfold expire_named_effect. cbv zeta.
  pose proof (same_set_buffs a b (end_effect (se_buffs b) n t) S) as S1. rewrite A.
  pose proof S1 as (_ & _ & C1). rewrite (C1 x). destruct (dget n _); [apply same_set_debuffs|]; exact S1.
Qed.
Lemma same_fold_expire l t x : forall a b, same_se a b ->
  same_se (fold_left (fun s n => expire_named_effect s n t x) l a) (fold_left (fun s n => expire_named_effect s n t x) l b).
Proof. induction l as [|n l IH]; intros a b S; cbn; [exact S|]. apply IH, same_expire_named, S. Qed.
Lemma same_apply_debuff t n sp x a b : same_se a b -> same_se (apply_debuff t n sp a x) (apply_debuff t n sp b x).
Proof.
  intros S. pose proof S as (_ & _ & C). unfold apply_debuff. apply same_fold_expire. rewrite C. apply same_set_debuffs, S.
Qed.
Lemma same_add_effects a b t s m l : same_se a b ->
  alike same_se (add_to_status_effects a t s m l) (add_to_status_effects b t s m l).
Proof.
  intros S. unfold add_to_status_effects. destruct (get_buff_spec s m) as [bu|e]; [|reflexivity]. cbn [bind].
  destruct (get_debuff_spec s m) as [de|e]; [|reflexivity]. cbn [bind alike].
  assert (S1 : same_se (match bu with Some sp => apply_buff a t (sk_name s) sp | None => a end)
                       (match bu with Some sp => apply_buff b t (sk_name s) sp | None => b end)).
  { destruct bu as [sp|]; [|exact S]. unfold apply_buff. cbv zeta. apply same_fold_expire. pose proof S as (A & _). rewrite A.
    apply same_set_buffs, S. }
  revert S1. generalize (match bu with Some sp => apply_buff a t (sk_name s) sp | None => a end)
    (match bu with Some sp => apply_buff b t (sk_name s) sp | None => b end). intros a1 b1 S1.
  destruct de as [sp|]; [|exact S1]. revert a1 b1 S1. induction l as [|x l IH]; intros a1 b1 S1; cbn; [exact S1|].
  apply IH, same_apply_debuff, S1.
Qed.

(** ** The damage builder with trackers that answer alike *)

Lemma same_resource a b t s m f : same_tk a b ->
  same_tk (fst (resource_conditional a t s m f)) (fst (resource_conditional b t s m f))
  /\ snd (resource_conditional a t s m f) = snd (resource_conditional b t s m f).
Proof.
  intros (A & B & C). unfold resource_conditional. destruct f; [repeat split; auto; apply A|]. rewrite B.
  destruct (compile_job_resources _ _ _) as [jr c]. cbn. split; [|reflexivity]. split; [exact A|]. split; [reflexivity | exact C].
Qed.
Lemma same_added a b t s m f : same_tk a b -> alike same_tk (resources_added a t s m f) (resources_added b t s m f).
Proof.
  intros (A & B & C). unfold resources_added. destruct f; [split; auto|]. rewrite B. destruct (add_resource _ _ _ _); [|reflexivity].
  cbn. split; [exact A|]. split; [reflexivity | exact C].
Qed.
Definition fst_same (x y : trackers * modifier) := same_tk (fst x) (fst y) /\ snd x = snd y.
Lemma same_combo a b t s m f : same_tk a b -> alike fst_same (combo_and_positional a t s m f) (combo_and_positional b t s m f).
Proof.
  intros (A & B & C). unfold combo_and_positional. destruct f; [repeat split; auto; apply A|]. rewrite C.
  destruct (compile_and_update_combo _ _ _ _) as [[ct c]|e]; [|reflexivity]. cbn [bind].
  destruct (add_positional s _); [|reflexivity]. cbn. split; [|reflexivity]. split; [exact A|]. split; [exact B | reflexivity].
Qed.

Definition same_apply (x y : se_tracker * list instance * modifier) : Prop :=
  same_se (fst (fst x)) (fst (fst y)) /\ snd (fst x) = snd (fst y) /\ snd x = snd y.
Definition same3 (x y : se_tracker * status_effects * modifier) : Prop :=
  same_se (fst (fst x)) (fst (fst y)) /\ snd (fst x) = snd (fst y) /\ snd x = snd y.
Lemma same_apply_target n t s m b sn id x y it : same_apply x y ->
  alike same_apply (apply_target n t s m b sn id x it) (apply_target n t s m b sn id y it).
Proof.
  destruct x as [[se out] m0], y as [[se' out'] m0'], it as [i x]. intros (A & B & C). cbn in A, B, C. subst out' m0'.
  unfold apply_target. cbv zeta. eapply alike_bind with (R := same3).
  - destruct sn; [|repeat split; auto; apply A]. eapply alike_bind; [apply same_compile_debuffs, A|].
    intros [a [e c]] [a' [e' c']] (H1 & H2). cbn in H1, H2. injection H2 as <- <-. repeat split; auto; apply H1.
  - intros [[a e] m1] [[a' e'] m1'] (H1 & H2 & H3). cbn in H1, H2, H3. subst e' m1'.
    destruct (get_damage_spec s m1) as [[sp|]|]; cbn [bind]; [|repeat split; auto; apply H1 | reflexivity].
    destruct (heappush _ _ _); cbn [bind]; [repeat split; auto; apply H1 | reflexivity].
Qed.
Definition same_out (x y : trackers * list instance) := same_tk (fst x) (fst y) /\ snd x = snd y.
Lemma same_application a b out e : same_tk a b -> alike same_out (application_event a out e) (application_event b out e).
Proof.
  intros S. unfold application_event. cbv zeta.
  pose proof (same_resource a b (ev_primary e) (ev_skill e) (ev_modifier e) (ev_jr_cond e) S) as (S1 & M1).
  destruct (resource_conditional a _ _ _ _) as [a1 m1], (resource_conditional b _ _ _ _) as [b1 m1']. cbn in S1, M1. subst m1'.
  eapply alike_bind; [apply same_added, S1|]. intros a2 b2 S2.
  eapply alike_bind; [apply same_combo, S2|]. intros [a3 m2] [b3 m2'] (S3 & M2). cbn in S3, M2. subst m2'.
  eapply alike_bind with (R := same3).
  - destruct (fst (ev_snap e)); [|repeat split; auto; apply S3]. eapply alike_bind; [apply same_compile_buffs, S3|].
    intros [x [ef c]] [x' [ef' c']] (H1 & H2). cbn in H1, H2. injection H2 as <- <-. repeat split; auto; apply H1.
  - intros [[se1 bu] m3] [[se1' bu'] m3'] (H1 & H2 & H3). cbn in H1, H2, H3. subst bu' m3'.
    eapply alike_bind.
    + apply alike_foldM with (R := same_apply); [intros; now apply same_apply_target|]. repeat split; auto; apply H1.
    + intros [[se2 o] m4] [[se2' o'] m4'] (K1 & K2 & K3). cbn in K1, K2, K3. subst o' m4'.
      eapply alike_bind; [apply same_add_effects, K1|]. intros se3 se3' K. destruct S3 as (_ & J & C).
      cbn. split; [split; [exact K | split; assumption] | reflexivity].
Qed.

Definition same_q (x y : se_tracker * queue) : Prop := same_se (fst x) (fst y) /\ snd x = snd y.
Definition same3s (x y : se_tracker * snap * modifier) : Prop :=
  same_se (fst (fst x)) (fst (fst y)) /\ snd (fst x) = snd (fst y) /\ snd x = snd y.
Lemma same_snapshot_target n t app np s m sn id jrc cc x y it : same_q x y ->
  alike same_q (snapshot_target n t app np s m sn id jrc cc x it) (snapshot_target n t app np s m sn id jrc cc y it).
Proof.
  destruct x as [se qu], y as [se' qu'], it as [i x]. intros (A & B). cbn in A, B. subst qu'.
  unfold snapshot_target. cbv zeta. eapply alike_bind with (R := same3s).
  - destruct (snd sn) as [[]|]; try (repeat split; auto; apply A). eapply alike_bind; [apply same_compile_debuffs, A|].
    intros [a [e c]] [a' [e' c']] (H1 & H2). cbn in H1, H2. injection H2 as <- <-. repeat split; auto; apply H1.
  - intros [[a e] m1] [[a' e'] m1'] (H1 & H2 & H3). cbn in H1, H2, H3. subst e' m1'.
    destruct (q_add _ _ _ _ _ _ _ _ _ _ _ _); cbn [bind]; [repeat split; auto; apply H1 | reflexivity].
Qed.
Definition same_snap (x y : trackers * queue) := same_tk (fst x) (fst y) /\ snd x = snd y.
Lemma same_snapshot a b qu e app : same_tk a b -> alike same_snap (snapshot_event a qu e app) (snapshot_event b qu e app).
Proof.
  intros S. unfold snapshot_event. cbv zeta. eapply alike_bind with (R := same3s).
  - destruct (fst (ev_snap e)) as [[]|]; try (repeat split; auto; apply S). eapply alike_bind; [apply same_compile_buffs, S|].
    intros [x [ef c]] [x' [ef' c']] (H1 & H2). cbn in H1, H2. injection H2 as <- <-. repeat split; auto; apply H1.
  - intros [[se1 sn0] m1] [[se1' sn0'] m1'] (H1 & H2 & H3). cbn in H1, H2, H3. subst sn0' m1'.
    assert (S1 : same_tk (mkTrackers se1 (tk_jr a) (tk_combo a)) (mkTrackers se1' (tk_jr b) (tk_combo b))) by (destruct S as (_ & J & C); split; [exact H1 | split; assumption]).
    match goal with |- context [resource_conditional _ ?t ?s ?m ?f] => pose proof (same_resource _ _ t s m f S1) as (S2 & M2) end.
    destruct (resource_conditional (mkTrackers se1 _ _) _ _ _ _) as [a2 m2], (resource_conditional (mkTrackers se1' _ _) _ _ _ _) as [b2 m2'].
    cbn in S2, M2. subst m2'.
    eapply alike_bind; [apply same_combo, S2|]. intros [a3 m3] [b3 m3'] (S3 & M3). cbn in S3, M3. subst m3'.
    eapply alike_bind; [apply same_added, S3|]. intros a4 b4 S4. eapply alike_bind.
    + apply alike_foldM with (R := same_q); [intros; now apply same_snapshot_target|]. split; [apply S4 | reflexivity].
    + intros [se2 q2] [se2' q2'] (K1 & K2). cbn in K1, K2. subst q2'. destruct S4 as (_ & J & C).
      cbn. split; [split; [exact K1 | split; assumption] | reflexivity].
Qed.
Definition same_state (x y : trackers * queue * list instance) : Prop :=
  same_tk (fst (fst x)) (fst (fst y)) /\ snd (fst x) = snd (fst y) /\ snd x = snd y.
Lemma same_step a b qu out e : same_tk a b -> alike same_state (damage_step a qu out e) (damage_step b qu out e).
Proof.
  intros S. unfold damage_step. cbv zeta.
  assert (S0 : same_tk (mkTrackers (expire_status_effects (ev_primary e) (tk_se a)) (tk_jr a) (tk_combo a))
                 (mkTrackers (expire_status_effects (ev_primary e) (tk_se b)) (tk_jr b) (tk_combo b)))
    by (destruct S as (H & J & C); split; [apply same_expire, H | split; assumption]).
  destruct (ev_secondary e) as [app|].
  - eapply alike_bind; [apply same_snapshot, S0|]. intros [x y] [x' y'] (H1 & H2). cbn in H1, H2. subst y'. repeat split; auto; apply H1.
  - eapply alike_bind; [apply same_application, S0|]. intros [x y] [x' y'] (H1 & H2). cbn in H1, H2. subst y'. repeat split; auto; apply H1.
Qed.
Lemma same_loop fuel : forall a b qu out, same_tk a b -> alike same_state (damage_loop fuel a qu out) (damage_loop fuel b qu out).
Proof.
  induction fuel as [|fuel IH]; intros a b qu out S; cbn [damage_loop]; destruct (q_is_empty qu);
    try (repeat split; auto; apply S); try reflexivity.
  destruct (q_get_next qu) as [[e qu1]|]; cbn [bind]; [|reflexivity].
  eapply alike_bind; [apply same_step, S|]. intros [[x y] z] [[x' y'] z'] (H1 & H2 & H3). cbn in H1, H2, H3. subst y' z'.
  apply IH, H1.
Qed.
Lemma same_damage a b qu : same_tk a b -> alike same_state (get_damage_instances a qu) (get_damage_instances b qu).
Proof.
  intros S. unfold get_damage_instances. eapply alike_bind; [apply same_loop, S|].
  intros [[x y] z] [[x' y'] z'] (H1 & H2 & H3). cbn in H1, H2, H3. subst y' z'. repeat split; auto; apply H1.
Qed.

(** ** Trackers in which nothing has happened *)

Definition idle (tk : trackers) : Prop :=
  se_buffs (tk_se tk) = [] /\ (forall x, get_debuffs (tk_se tk) x = [])
  /\ Forall (fun kv => snd (snd kv) = []) (tk_jr tk) /\ ct_last (tk_combo tk) = [].
(** [a] and [b] differ in no effect, resource or combo. *)
Definition still (a b : trackers) : Prop :=
  idle b /\ same_tk a b.

Lemma idle_effects prio t deny n : compile_effects prio t [] deny n = Ok ([], (set_names no_effects [], "")).
Proof.
  unfold compile_effects, valid_status_effects. cbn [filter map].
  replace (delete_lower_priority prio []) with (@nil string); [reflexivity|].
  induction prio as [|p prio IH]; cbn; [reflexivity | exact IH].
Qed.
Lemma idle_buffs a b t s r : same_se a b -> se_buffs a = [] -> compile_buffs a t s = Ok r -> same_se (fst r) b /\ se_buffs (fst r) = [].
Proof.
  intros (A & B & C) E. unfold compile_buffs. rewrite E, idle_effects. cbn. intros [= <-]. cbn. split; [|reflexivity].
  split; [cbn; now rewrite <- A|]. split; [exact B | exact C].
Qed.
Lemma idle_debuffs a b t s x r : same_se a b -> (forall y, get_debuffs a y = []) -> compile_debuffs a t s x = Ok r ->
  same_se (fst r) b.
Proof.
  intros (A & B & C) E. unfold compile_debuffs. rewrite E, idle_effects. cbn. intros [= <-].
  split; [exact A|]. split; [exact B|]. intro y. cbn [fst]. rewrite get_debuffs_set_debuffs, <- C.
  destruct (String.eqb y x); [now rewrite E | reflexivity].
Qed.
Lemma idle_resources jr t n : Forall (fun kv => snd (snd kv) = []) jr -> compile_job_resources jr t n = (jr, snd (compile_job_resources jr t n)).
Proof.
  intro F. unfold compile_job_resources. cbn. f_equal. induction F as [|[k [cfg l]] jr E F IH]; cbn; [reflexivity|].
  rewrite IH. cbn in E. subst l. cbn. destruct (smem n (jrs_allowlist cfg)); reflexivity.
Qed.

Lemma still_sym a b : still a b -> idle a /\ same_tk a b.
Proof.
  intros ((A & B & C & D) & S). split; [|exact S]. destruct S as ((E & _ & F) & G & H). repeat split.
  - now rewrite E. - intro x. now rewrite F. - now rewrite G. - now rewrite H.
Qed.
Lemma still_se a b se' : still a b -> same_se se' (tk_se a) -> still (mkTrackers se' (tk_jr a) (tk_combo a)) b.
Proof.
  intros (I & (A & B & C) & J & K) (A' & B' & C'). split; [exact I|]. split; [|split; assumption].
  split; [|split]; cbn; [congruence | congruence | intro x; rewrite C'; apply C].
Qed.
Lemma same_se_refl a : same_se a a. Proof. repeat split. Qed.
Lemma idle_expire t a : se_buffs a = [] -> (forall x, get_debuffs a x = []) -> same_se (expire_status_effects t a) a.
Proof.
  intros E F. split; [cbn; now rewrite E|]. split; [reflexivity|]. intro x. rewrite get_debuffs_expire, !F. reflexivity.
Qed.

Lemma still_resource a b t s m f a' m' : still a b -> resource_conditional a t s m f = (a', m') -> still a' b.
Proof.
  intros S. pose proof (still_sym _ _ S) as ((_ & _ & F & _) & _). unfold resource_conditional.
  destruct f; [intros [= <- _]; exact S|]. rewrite (idle_resources _ t (sk_name s) F). intros [= <- _]. destruct a. exact S.
Qed.
Lemma still_added a b t s m f a' : traceless s -> still a b -> resources_added a t s m f = Ok a' -> still a' b.
Proof.
  intros T S. unfold resources_added. destruct f; [intros [= <-]; exact S|]. unfold add_resource.
  destruct (T m) as (_ & _ & -> & _). cbn. intros [= <-]. destruct a. exact S.
Qed.
Lemma still_combo a b t s m f r : traceless s -> still a b -> combo_and_positional a t s m f = Ok r -> still (fst r) b.
Proof.
  intros T S. unfold combo_and_positional. destruct f; [intros [= <-]; exact S|]. unfold compile_and_update_combo.
  destruct (T m) as (_ & _ & _ & ->). cbn. destruct (add_positional s _); [|discriminate]. cbn. intros [= <-]. destruct a. exact S.
Qed.

Definition quiet (a : trackers) (se : se_tracker) : Prop := same_se se (tk_se a).
Lemma quiet_buffs a b se t s r : still a b -> quiet a se -> compile_buffs se t s = Ok r -> quiet a (fst r).
Proof.
  intros S Q H. pose proof (still_sym _ _ S) as ((E & _) & _). pose proof Q as (Q1 & _).
  rewrite E in Q1. exact (proj1 (idle_buffs _ _ _ _ _ Q Q1 H)).
Qed.
Lemma quiet_debuffs a b se t s x r : still a b -> quiet a se -> compile_debuffs se t s x = Ok r -> quiet a (fst r).
Proof.
  intros S Q H. pose proof (still_sym _ _ S) as ((_ & E & _) & _). pose proof Q as (_ & _ & Q3).
  refine (idle_debuffs _ _ _ _ _ _ Q _ H). intro y. now rewrite Q3.
Qed.
Lemma foldM_keeps {A S} (P : S -> Prop) (f : S -> A -> res S) :
  (forall s a s', P s -> f s a = Ok s' -> P s') -> forall l s s', P s -> foldM f l s = Ok s' -> P s'.
Proof.
  intros H l. induction l as [|a l IH]; intros s s' HP E; cbn in E; [now injection E as <-|].
  apply bind_ok in E as (s1 & E1 & E2). eapply IH; [|exact E2]. eapply H; eassumption.
Qed.

Ltac keeps P Q E := refine (foldM_keeps P _ _ _ _ _ _ E); [|exact Q || (cbn; exact Q)].

Lemma still_application a b out e r : traceless (ev_skill e) -> still a b -> application_event a out e = Ok r -> still (fst r) b.
Proof.
  intros T S H. unfold application_event in H. cbv zeta in H. destruct (resource_conditional _ _ _ _ _) as [a1 m1] eqn:E1.
  pose proof (still_resource _ _ _ _ _ _ _ _ S E1) as S1.
  apply bind_ok in H as (a2 & E2 & H). pose proof (still_added _ _ _ _ _ _ _ T S1 E2) as S2.
  apply bind_ok in H as ([a3 m2] & E3 & H). pose proof (still_combo _ _ _ _ _ _ _ T S2 E3) as S3. cbn [fst] in S3.
  apply bind_ok in H as ([[se1 bu] m3] & E4 & H).
  assert (Q1 : quiet a3 se1).
  { destruct (fst (ev_snap e)).
    - apply bind_ok in E4 as ([se' [b' c']] & E5 & E4). injection E4 as <- <- <-. exact (quiet_buffs _ _ _ _ _ _ S3 (same_se_refl _) E5).
    - injection E4 as <- <- <-. apply same_se_refl. }
  apply bind_ok in H as ([[se2 o] m4] & E5 & H).
  assert (Q2 : quiet a3 se2).
  { keeps (fun x : se_tracker * list instance * modifier => quiet a3 (fst (fst x))) Q1 E5. intros [[x y] z] [i tg] st' HQ HE.
    unfold apply_target in HE. cbn in HQ. apply bind_ok in HE as ([[x1 y1] z1] & EA & HE).
    assert (QA : quiet a3 x1).
    { destruct (snd (ev_snap e)).
      - apply bind_ok in EA as ([se' [b' c']] & E6 & EA). injection EA as <- <- <-. exact (quiet_debuffs _ _ _ _ _ _ _ S3 HQ E6).
      - injection EA as <- <- <-. exact HQ. }
    apply bind_ok in HE as ([sp|] & _ & HE); [apply bind_ok in HE as (o' & _ & HE)|]; injection HE as <-; exact QA. }
  unfold add_to_status_effects in H. destruct (T (if (List.length (ev_targets e) =? 1)%nat then m4 else m3)) as (B1 & B2 & _).
  rewrite B1, B2 in H. cbn in H. injection H as <-. cbn. apply (still_se _ _ _ S3 Q2).
Qed.
Lemma still_snapshot a b qu e app r : traceless (ev_skill e) -> still a b -> snapshot_event a qu e app = Ok r -> still (fst r) b.
Proof.
  intros T S H. unfold snapshot_event in H. cbv zeta in H. apply bind_ok in H as ([[se1 sn0] m1] & E1 & H).
  assert (Q1 : quiet a se1).
  { destruct (fst (ev_snap e)) as [[]|].
    - apply bind_ok in E1 as ([se' [b' c']] & E5 & E4). injection E4 as <- <- <-. exact (quiet_buffs _ _ _ _ _ _ S (same_se_refl _) E5).
    - injection E1 as <- <- <-. apply same_se_refl.
    - injection E1 as <- <- <-. apply same_se_refl. }
  pose proof (still_se _ _ _ S Q1) as S1.
  destruct (resource_conditional _ _ _ _ _) as [a2 m2] eqn:E2. pose proof (still_resource _ _ _ _ _ _ _ _ S1 E2) as S2.
  apply bind_ok in H as ([a3 m3] & E3 & H). pose proof (still_combo _ _ _ _ _ _ _ T S2 E3) as S3. cbn [fst] in S3.
  apply bind_ok in H as (a4 & E4 & H). pose proof (still_added _ _ _ _ _ _ _ T S3 E4) as S4.
  apply bind_ok in H as ([se2 q2] & E5 & H). injection H as <-. cbn [fst]. apply (still_se _ _ _ S4).
  keeps (fun x : se_tracker * queue => quiet a4 (fst x)) (same_se_refl (tk_se a4)) E5. intros [x y] [i tg] st' HQ HE.
  unfold snapshot_target in HE. cbn in HQ. apply bind_ok in HE as ([[x1 y1] z1] & EA & HE).
  assert (QA : quiet a4 x1).
  { cbn [snd] in EA. destruct (snd (ev_snap e)) as [[]|].
    - apply bind_ok in EA as ([se' [b' c']] & E6 & EA). injection EA as <- <- <-. exact (quiet_debuffs _ _ _ _ _ _ _ S4 HQ E6).
    - injection EA as <- <- <-. exact HQ.
    - injection EA as <- <- <-. exact HQ. }
  apply bind_ok in HE as (o' & _ & HE); injection HE as <-; exact QA.
Qed.

Definition all_traceless (qu : queue) : Prop := Forall (fun e => traceless (ev_skill e)) (q_heap qu).
Lemma kids_traceless n t app np m sn jrc cc e l : forall st st',
  traceless (ev_skill e) -> all_traceless (snd st) ->
  foldM (snapshot_target n t app np (ev_skill e) m sn (ev_id e) jrc cc) l st = Ok st' -> all_traceless (snd st').
Proof.
  intros st st' T A H. keeps (fun x : se_tracker * queue => all_traceless (snd x)) A H.
  intros [x y] [i tg] s' HA HE. cbn in HA. unfold snapshot_target in HE. apply bind_ok in HE as ([[x1 y1] z1] & _ & HE).
  apply bind_ok in HE as (q' & E & HE). injection HE as <-. cbn [snd]. rewrite q_add_eq in E. apply api_add_spec in E as (P & _).
  unfold all_traceless. apply (Permutation_Forall (Permutation_sym P)). constructor; [exact T | exact HA].
Qed.
Lemma snapshot_traceless a qu e app r : traceless (ev_skill e) -> all_traceless qu -> snapshot_event a qu e app = Ok r -> all_traceless (snd r).
Proof.
  intros T A H. unfold snapshot_event in H. cbv zeta in H. apply bind_ok in H as ([[se1 sn0] m1] & _ & H).
  destruct (resource_conditional _ _ _ _ _) as [a2 m2]. apply bind_ok in H as ([a3 m3] & _ & H).
  apply bind_ok in H as (a4 & _ & H). apply bind_ok in H as ([se2 q2] & E5 & H). injection H as <-. cbn [snd].
  refine (kids_traceless _ _ _ _ _ _ _ _ _ _ _ _ T _ E5); exact A.
Qed.
Lemma still_loop fuel : forall a b qu out r,
  q_inv qu -> all_traceless qu -> still a b -> damage_loop fuel a qu out = Ok r -> still (fst (fst r)) b.
Proof.
  induction fuel as [|fuel IH]; intros a b qu out r I A S H; cbn [damage_loop] in H; destruct (q_is_empty qu);
    try (injection H as <-; exact S); [discriminate H|].
  apply bind_ok in H as ([e q1] & E & H). apply q_get_next_spec in E as (P & _ & I1 & _); [|exact I].
  assert (A1 : traceless (ev_skill e) /\ all_traceless q1).
  { unfold all_traceless in A. apply (Permutation_Forall P) in A. inversion A; subst. split; assumption. }
  destruct A1 as (T & A1). apply bind_ok in H as ([[a1 q2] o1] & E & H).
  assert (S0 : still (mkTrackers (expire_status_effects (ev_primary e) (tk_se a)) (tk_jr a) (tk_combo a)) b).
  { apply still_se; [exact S|]. apply still_sym in S as ((B1 & B2 & _) & _). now apply idle_expire. }
  unfold damage_step in E. cbv zeta in E. destruct (ev_secondary e) as [app|].
  - apply bind_ok in E as ([a2 q3] & E & F). injection F as <- <- <-.
    eapply IH; [|exact (snapshot_traceless _ _ _ _ _ T A1 E) | exact (still_snapshot _ _ _ _ _ _ T S0 E) | exact H].
    unfold snapshot_event in E. apply bind_ok in E as ([[se1 sn0] m1] & _ & E). cbv zeta in E.
    destruct (resource_conditional _ _ _ _ _) as [a3 m2]. apply bind_ok in E as ([a4 m3] & _ & E).
    apply bind_ok in E as (a5 & _ & E). apply bind_ok in E as ([se2 q4] & E & F). injection F as <- <-.
    keeps (fun x : se_tracker * queue => q_inv (snd x)) I1 E. intros [x y] [i tg] s' HI HE.
    unfold snapshot_target in HE. cbn in HI. apply bind_ok in HE as ([[x1 y1] z1] & _ & HE). apply bind_ok in HE as (q' & EQ & HE).
    injection HE as <-. cbn [snd]. rewrite q_add_eq in EQ. apply api_add_spec in EQ as (_ & _ & K). exact (K HI).
  - apply bind_ok in E as ([a2 o2] & E & F). injection F as <- <- <-.
    eapply IH; [exact I1 | exact A1 | exact (still_application _ _ _ _ _ T S0 E) | exact H].
Qed.

(** After a rotation of skills that grant nothing, the builder is as new. *)
Lemma as_new tk qu tk1 qu1 l1 qu2 :
  idle tk -> q_inv qu -> all_traceless qu -> get_damage_instances tk qu = Ok (tk1, qu1, l1) ->
  alike same_state (get_damage_instances tk1 qu2) (get_damage_instances tk qu2).
Proof.
  intros I Q A H. apply same_damage. unfold get_damage_instances in H. apply bind_ok in H as ([[a q1] o] & E & H). injection H as <- <- <-.
  assert (S : still tk tk) by (split; [exact I | split; [apply same_se_refl | split; reflexivity]]).
  exact (proj2 (still_loop _ _ _ _ _ _ Q A S E)).
Qed.
Lemma new_is_idle st lib tk : db_init st lib = Ok tk -> idle tk.
Proof.
  unfold db_init, new_trackers. intro H. apply bind_ok in H as (prio & _ & H).
  apply bind_ok in H as (br & _ & H).
  apply bind_ok in H as (se & _ & H). injection H as <-.
  split; [reflexivity|]. split; [intro; reflexivity|]. split; [|reflexivity].
  apply Forall_forall. intros kv Hk. unfold jr_init in Hk. apply in_map_iff in Hk as (x & <- & _). reflexivity.
Qed.

Lemma alike_outcome a b : alike same_state a b -> outcome a = outcome b.
Proof.
  destruct a as [[[x y] z]|e], b as [[[x' y'] z']|e']; cbn; try tauto.
  - intros (_ & _ & E). cbn in E. now rewrite E.
  - intros ->. reflexivity.
Qed.
