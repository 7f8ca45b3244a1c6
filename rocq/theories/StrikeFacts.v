(** * Further attacks in the damage builder (C87) *)

From Coq Require Import ZArith QArith List String Bool Lia Permutation.
From Verif Require Import Base BaseFacts Heap HeapFacts Strings Types Lookup StatusEffect StatusFacts JobResource Combo Stats
  Library Events EventsFacts SpecQueue Rotation DamageBuild Damage SpecTimeline SpecGame SafeFacts TargetFacts SpecIdle IdleFacts LaterFacts SpecCause CauseFacts BuffFacts SpecStrike.
Import ListNotations.
Open Scope Z_scope.

Section Strike.
Variable more0 : list event.
Definition named (n : string) : Prop := exists e, In e more0 /\ sk_name (ev_skill e) = n.

(** ** Status effects of the two fights *)
Definition calm (d : dict active) : Prop := forall n, named n -> quiet n d.
Definition se_same (a b : se_tracker) : Prop :=
  se_priority b = se_priority a /\ se_buffs b = se_buffs a /\ (forall x, get_debuffs b x = get_debuffs a x)
  /\ calm (se_buffs a) /\ (forall x, calm (get_debuffs a x)).

Lemma same_expire t a b : se_same a b -> se_same (expire_status_effects t a) (expire_status_effects t b).
Proof.
  intros (P & B & D & G & H). split; [exact P|]. split; [|split; [|split]].
  - cbn [expire_status_effects se_buffs]. rewrite B. reflexivity.
  - intros x. rewrite !get_expire, D. reflexivity.
  - intros n Hn. cbn [expire_status_effects se_buffs]. apply quiet_filter, G, Hn.
  - intros x n Hn. rewrite get_expire. apply quiet_filter, H, Hn.
Qed.
(** The two agree from [T] on. *)
Definition agree (T : Z) (a b : se_tracker) : Prop := forall t, T <= t -> se_same (expire_status_effects t a) (expire_status_effects t b).
Lemma agree_here T a b : se_same a b -> agree T a b.
Proof. intros M t _. apply same_expire, M. Qed.
Lemma agree_expired T a b : se_same (expire_status_effects T a) b -> agree T a b.
Proof. intros M t L. rewrite <- (expire_status_twice T t a L). apply same_expire, M. Qed.

Lemma same_set_buffs a b d : se_same a b -> calm d -> se_same (set_buffs a d) (set_buffs b d).
Proof. intros (P & B & D & G & H) Gd. split; [exact P|]. split; [reflexivity|]. split; [exact D|]. split; [exact Gd|exact H]. Qed.
Lemma same_set_debuffs a b x d : se_same a b -> calm d -> se_same (set_debuffs a x d) (set_debuffs b x d).
Proof.
  intros (P & B & D & G & H) Gd. split; [exact P|]. split; [exact B|]. split; [|split; [exact G|]]; intros y; rewrite !get_set; destruct (String.eqb y x); auto.
Qed.
Lemma same_set_debuffs_r a b x : se_same a b -> se_same a (set_debuffs b x (get_debuffs b x)).
Proof.
  intros (P & B & D & G & H). split; [exact P|]. split; [exact B|]. split; [|split; assumption]. intros y; rewrite !get_set.
  destruct (String.eqb_spec y x) as [->|]; apply D.
Qed.
Lemma same_end a b n t x : se_same a b -> se_same (expire_named_effect a n t x) (expire_named_effect b n t x).
Proof.
  intros M. unfold expire_named_effect. cbv zeta. pose proof M as (P & B & D & G & H). rewrite B.
  assert (M1 : se_same (set_buffs a (end_effect (se_buffs a) n t)) (set_buffs b (end_effect (se_buffs a) n t))).
  { apply same_set_buffs; [exact M|]. intros k Hk. apply quiet_end, G, Hk. }
  change (get_debuffs (set_buffs a ?d) ?y) with (get_debuffs a y). change (get_debuffs (set_buffs b ?d) ?y) with (get_debuffs b y). rewrite D.
  destruct (dget n (get_debuffs a x)); [|exact M1]. apply same_set_debuffs; [exact M1|]. intros k Hk. apply quiet_end, H, Hk.
Qed.
Lemma same_fold {A} (f : se_tracker -> A -> se_tracker) l : (forall a b x, se_same a b -> se_same (f a x) (f b x)) ->
  forall a b, se_same a b -> se_same (fold_left f l a) (fold_left f l b).
Proof. intros F. induction l as [|x l IH]; intros a b M; [exact M|]. cbn [fold_left]. apply IH, F, M. Qed.

Definition apart_from (sp : status_spec) : Prop := forall n, named n -> uses_apart n sp.
Lemma same_add a b t s m l x y : se_same a b -> (forall sp, In sp (effects_of s) -> apart_from sp) ->
  add_to_status_effects a t s m l = Ok x -> add_to_status_effects b t s m l = Ok y -> se_same x y.
Proof.
  intros M U. unfold add_to_status_effects. intros H H'.
  apply bind_ok in H as (bu & A & H). rewrite A in H'. cbn [bind] in H'. apply bind_ok in H as (de & A' & H). rewrite A' in H'. cbn [bind] in H'.
  injection H as <-. injection H' as <-.
  set (a1 := match bu with Some sp => apply_buff a t (sk_name s) sp | None => a end).
  set (b1 := match bu with Some sp => apply_buff b t (sk_name s) sp | None => b end).
  assert (M1 : se_same a1 b1).
  { subst a1 b1. destruct bu as [sp|]; [|exact M]. unfold apply_buff. cbv zeta. apply same_fold; [intros; apply same_end; assumption|].
    assert (Us : apart_from sp) by (apply U, in_or_app; left; exact (cspec_declared _ _ _ A)). pose proof M as (_ & -> & _ & G & _).
    destruct (clear_all_status_effects sp); (apply same_set_buffs; [exact M|intros n Hn; apply quiet_add; [|apply Us, Hn]]); [apply quiet_nil|apply G, Hn]. }
  clearbody a1 b1. destruct de as [sp|]; [|exact M1]. apply same_fold; [|exact M1]. clear a1 b1 M1. intros a1 b1 z M1.
  assert (Us : apart_from sp) by (apply U, in_or_app; right; exact (cspec_declared _ _ _ A')).
  unfold apply_debuff. apply same_fold; [intros; apply same_end; assumption|].
  pose proof M1 as (_ & _ & D & _ & G). rewrite D. apply same_set_debuffs; [exact M1|]. intros n Hn. apply quiet_add; [apply G, Hn|apply Us, Hn].
Qed.
Lemma same_compile_buffs a b t s x y : se_same a b -> compile_buffs a t s = Ok x -> compile_buffs b t s = Ok y -> se_same (fst x) (fst y) /\ snd y = snd x.
Proof.
  intros M. unfold compile_buffs. pose proof M as (P & B & D & G & _). rewrite P, B. intros H H'.
  apply bind_ok in H as ([d r] & A & H). rewrite A in H'. cbn [bind] in H'. injection H as <-. injection H' as <-. split; [|reflexivity].
  apply same_set_buffs; [exact M|]. intros n Hn. eapply quiet_compile; [apply G, Hn|exact A].
Qed.
Lemma same_compile_debuffs a b t s z x y : se_same a b -> compile_debuffs a t s z = Ok x -> compile_debuffs b t s z = Ok y -> se_same (fst x) (fst y) /\ snd y = snd x.
Proof.
  intros M. unfold compile_debuffs. pose proof M as (P & B & D & _ & G). rewrite P, D. intros H H'.
  apply bind_ok in H as ([d r] & A & H). rewrite A in H'. cbn [bind] in H'. injection H as <-. injection H' as <-. split; [|reflexivity].
  apply same_set_debuffs; [exact M|]. intros n Hn. eapply quiet_compile; [apply G, Hn|exact A].
Qed.
Lemma strike_buffs a b t s y : se_same a b -> named (sk_name s) -> compile_buffs b t s = Ok y -> se_same a (fst y).
Proof.
  intros M X. unfold compile_buffs. intros H'. apply bind_ok in H' as ([d' r'] & A' & H'). injection H' as <-. cbn [fst].
  pose proof M as (_ & B & _ & G & _). apply same_compile in A'; [|rewrite B; apply G, X]. subst d'. rewrite set_same_buffs. exact M.
Qed.
Lemma strike_debuffs a b t s z y : se_same a b -> named (sk_name s) -> compile_debuffs b t s z = Ok y -> se_same a (fst y).
Proof.
  intros M X. unfold compile_debuffs. intros H'. apply bind_ok in H' as ([d' r'] & A' & H'). injection H' as <-. cbn [fst].
  pose proof M as (_ & _ & D & _ & G). apply same_compile in A'; [|rewrite D; apply G, X]. subst d'. apply same_set_debuffs_r, M.
Qed.

(** ** Resources *)
Definition asks_none (jr : jr_tracker) : Prop := forall n, named n -> unasked n jr.
Lemma none_compile jr t s : asks_none jr -> asks_none (fst (compile_job_resources jr t s)).
Proof.
  intros F k X n cfg l I. unfold compile_job_resources in I. cbn [fst] in I. apply in_map_iff in I as ([n0 [cfg0 l0]] & I & I0).
  specialize (F k X _ _ _ I0). destruct (smem s (jrs_allowlist cfg0)); injection I as <- <- <-; exact F.
Qed.
Lemma none_add jr t s m jr' : asks_none jr -> add_resource jr t s m = Ok jr' -> asks_none jr'.
Proof. intros F H n X. exact (quiet_resources n _ _ _ _ _ (F n X) H). Qed.

Definition tk_same (a b : trackers) : Prop := se_same (tk_se a) (tk_se b) /\ tk_jr b = tk_jr a /\ tk_combo b = tk_combo a /\ asks_none (tk_jr a).
Lemma same_conditional a b t s m k : tk_same a b ->
  tk_same (fst (resource_conditional a t s m k)) (fst (resource_conditional b t s m k))
  /\ snd (resource_conditional b t s m k) = snd (resource_conditional a t s m k).
Proof.
  intros (S & J & C & F). unfold resource_conditional. destruct k; [split; [repeat (split; [assumption|]); exact F|reflexivity]|]. rewrite J.
  pose proof (none_compile _ t (sk_name s) F) as F1.
  destruct (compile_job_resources (tk_jr a) t (sk_name s)) as [jr c]. split; [|reflexivity]. split; [exact S|]. split; [reflexivity|]. split; [exact C|exact F1].
Qed.
Lemma same_added a b t s m k x y : tk_same a b -> resources_added a t s m k = Ok x -> resources_added b t s m k = Ok y -> tk_same x y.
Proof.
  intros (S & J & C & F). unfold resources_added. destruct k.
  - intros H H'. injection H as <-. injection H' as <-. repeat (split; [assumption|]). exact F.
  - rewrite J. intros H H'. apply bind_ok in H as (jr & A & H). rewrite A in H'. cbn [bind] in H'. injection H as <-. injection H' as <-.
    split; [exact S|]. split; [reflexivity|]. split; [exact C|]. exact (none_add _ _ _ _ _ F A).
Qed.
Lemma same_combo a b t s m p x y : tk_same a b -> combo_and_positional a t s m p = Ok x -> combo_and_positional b t s m p = Ok y ->
  tk_same (fst x) (fst y) /\ snd y = snd x.
Proof.
  intros (S & J & C & F). unfold combo_and_positional. destruct p.
  - intros H H'. injection H as <-. injection H' as <-. split; [repeat (split; [assumption|]); exact F|reflexivity].
  - rewrite C. intros H H'. apply bind_ok in H as ([ct c] & A & H). rewrite A in H'. cbn [bind] in H'.
    apply bind_ok in H as (m' & A' & H). rewrite A' in H'. cbn [bind] in H'. injection H as <-. injection H' as <-.
    split; [|reflexivity]. split; [exact S|]. split; [exact J|]. split; [reflexivity|exact F].
Qed.
Lemma strike_conditional a b t s m k : tk_same a b -> named (sk_name s) -> tk_same a (fst (resource_conditional b t s m k)).
Proof.
  intros (S & J & C & F) X. unfold resource_conditional. destruct k; [repeat (split; [assumption|]); exact F|].
  pose proof (asks_nothing (sk_name s) (tk_jr b) t) as Q. rewrite J in *. specialize (Q (F _ X)).
  destruct (compile_job_resources (tk_jr a) t (sk_name s)) as [jr c]. cbn [fst] in *. subst jr. split; [exact S|]. split; [reflexivity|]. split; assumption.
Qed.
Lemma strike_added a b t s m k y : tk_same a b -> grants_nothing s -> resources_added b t s m k = Ok y -> tk_same a y.
Proof.
  intros T Su. unfold resources_added. destruct k; [intros H; injection H as <-; exact T|].
  destruct (Su m) as (_ & _ & _ & _ & R). unfold add_resource. rewrite R. cbn [bind foldM]. intros H. injection H as <-. destruct b; exact T.
Qed.
Lemma strike_combo a b t s m p y : tk_same a b -> grants_nothing s -> combo_and_positional b t s m p = Ok y -> tk_same a (fst y).
Proof.
  intros T Su. unfold combo_and_positional. destruct p; [intros H; injection H as <-; exact T|].
  destruct (Su m) as (_ & _ & _ & R & _). unfold compile_and_update_combo. rewrite R. cbn [bind fold_left]. intros H. apply bind_ok in H as (m' & _ & H). injection H as <-.
  destruct b; exact T.
Qed.

(** ** Events *)
Definition alike (e e' : event) : Prop := anon e' = anon e.
Definition undisturbed (e : event) : Prop := forall sp, In sp (effects_of (ev_skill e)) -> apart_from sp.
Definition striking (e : event) : Prop := (exists e0, In e0 more0 /\ ev_skill e = ev_skill e0) /\ grants_nothing (ev_skill e).
Lemma striking_named e : striking e -> named (sk_name (ev_skill e)).
Proof. intros ((e0 & I & ->) & _). exists e0. auto. Qed.

(** [o'] has the hits of [o] and hits of the further skills. *)
Definition more_hits (o o' : list instance) : Prop :=
  exists own, Permutation (map unnumbered o') (map unnumbered (own ++ o)) /\ forall i, In i own -> exists e, In e more0 /\ di_skill i = ev_skill e.
Lemma hits_both o o' i i' h h' : more_hits o o' -> unnumbered i' = unnumbered i -> heappush inst_lt o i = Ok h -> heappush inst_lt o' i' = Ok h' -> more_hits h h'.
Proof.
  intros (own & P & W) B H H'. apply heappush_perm in H. apply heappush_perm in H'. exists own. split; [|exact W].
  rewrite <- H', map_app, <- H, <- map_app. cbn [map]. rewrite B. rewrite map_app. cbn [map]. rewrite <- Permutation_middle, <- map_app. constructor. exact P.
Qed.
Lemma hits_own o o' i' h' : more_hits o o' -> (exists e, In e more0 /\ di_skill i' = ev_skill e) -> heappush inst_lt o' i' = Ok h' -> more_hits o h'.
Proof.
  intros (own & P & W) B H'. apply heappush_perm in H'. exists (i' :: own). split; [|intros i [<-|I]; [exact B|exact (W i I)]].
  rewrite <- H'. cbn [map List.app]. constructor. exact P.
Qed.

Lemma apply_same n t s m bu sn id id' l :
  forall k a b o o' m0 x y, se_same a b -> more_hits o o' ->
  foldM (apply_target n t s m bu sn id) (enum_from k l) (a, o, m0) = Ok x ->
  foldM (apply_target n t s m bu sn id') (enum_from k l) (b, o', m0) = Ok y ->
  se_same (fst (fst x)) (fst (fst y)) /\ more_hits (snd (fst x)) (snd (fst y)) /\ snd y = snd x.
Proof.
  induction l as [|z l IH]; intros k a b o o' m0 x y R O H H'.
  - cbn in H, H'. injection H as <-. injection H' as <-. split; [exact R|]. split; [exact O|reflexivity].
  - cbn [enum_from foldM] in H, H'.
    apply bind_ok in H as ([[se1 o1] m1] & A & H). apply bind_ok in H' as ([[se1' o1'] m1'] & A' & H').
    unfold apply_target in A, A'. cbv zeta in A, A'.
    apply bind_ok in A as ([[se2 de] m2] & A1 & A). apply bind_ok in A' as ([[se2' de'] m2'] & A1' & A').
    assert (X : se_same se2 se2' /\ de' = de /\ m2' = m2).
    { destruct sn as [fl|e].
      - apply bind_ok in A1 as ([c [e1 c1]] & C & A1). apply bind_ok in A1' as ([c' [e1' c1']] & C' & A1').
        injection A1 as <- <- <-. injection A1' as <- <- <-. destruct (same_compile_debuffs _ _ _ _ _ _ _ R C C') as (R1 & E).
        cbn [fst snd] in *. injection E as -> ->. auto.
      - injection A1 as <- <- <-. injection A1' as <- <- <-. auto. }
    destruct X as (R1 & -> & ->). clear A1 A1'.
    apply bind_ok in A as (d & B & A). apply bind_ok in A' as (d' & B' & A'). rewrite B in B'. injection B' as <-.
    destruct d as [sp|].
    + apply bind_ok in A as (h & C & A). apply bind_ok in A' as (h' & C' & A'). injection A as <- <- <-. injection A' as <- <- <-.
      eapply IH; [exact R1 | | exact H | exact H']. eapply hits_both; [exact O| |exact C|exact C']. reflexivity.
    + injection A as <- <- <-. injection A' as <- <- <-. eapply IH; [exact R1|exact O|exact H|exact H'].
Qed.
Lemma alike_fields e e' : alike e e' ->
  ev_priority e' = ev_priority e /\ ev_primary e' = ev_primary e /\ ev_secondary e' = ev_secondary e /\ ev_skill e' = ev_skill e
  /\ ev_modifier e' = ev_modifier e /\ ev_snap e' = ev_snap e /\ ev_targets e' = ev_targets e /\ ev_jr_added e' = ev_jr_added e /\ ev_jr_cond e' = ev_jr_cond e
  /\ ev_combo_cond e' = ev_combo_cond e.
Proof. unfold alike, anon. intros H. injection H as E1 E2 E3 E4 E5 E6 E7 E8 E9 E10. repeat (split; [assumption|]). assumption. Qed.

Lemma application_same a b o o' e e' x y : tk_same a b -> more_hits o o' -> undisturbed e -> alike e e' ->
  application_event a o e = Ok x -> application_event b o' e' = Ok y -> tk_same (fst x) (fst y) /\ more_hits (snd x) (snd y).
Proof.
  intros T O Ru L. destruct (alike_fields _ _ L) as (L1 & L2 & L3 & L4 & L5 & L6 & L7 & L8 & L9 & L10). unfold application_event. cbv zeta. rewrite L2, L4, L5, L6, L7, L8, L9, L10.
  destruct (same_conditional a b (ev_primary e) (ev_skill e) (ev_modifier e) (ev_jr_cond e) T) as [T1 M1].
  destruct (resource_conditional a _ _ _ _) as [a1 m1], (resource_conditional b _ _ _ _) as [b1 m1']. cbn [fst snd] in *. subst m1'. intros H H'.
  apply bind_ok in H as (a2 & A & H). apply bind_ok in H' as (b2 & A' & H'). pose proof (same_added _ _ _ _ _ _ _ _ T1 A A') as T2. clear A A'.
  apply bind_ok in H as ([a3 m2] & A & H). apply bind_ok in H' as ([b3 m2'] & A' & H'). destruct (same_combo _ _ _ _ _ _ _ _ T2 A A') as [T3 M2].
  cbn [fst snd] in *. subst m2'. clear A A'. destruct T3 as (S3 & J3 & C3 & F3).
  apply bind_ok in H as ([[se1 bu] m3] & A & H). apply bind_ok in H' as ([[se1' bu'] m3'] & A' & H').
  assert (X : se_same se1 se1' /\ bu' = bu /\ m3' = m3).
  { destruct (fst (ev_snap e)) as [fl|ef].
    - apply bind_ok in A as ([c [e1 c1]] & C & A). apply bind_ok in A' as ([c' [e1' c1']] & C' & A').
      injection A as <- <- <-. injection A' as <- <- <-. destruct (same_compile_buffs _ _ _ _ _ _ S3 C C') as (R1 & E).
      cbn [fst snd] in *. injection E as -> ->. auto.
    - injection A as <- <- <-. injection A' as <- <- <-. auto. }
  destruct X as (S4 & -> & ->). clear A A'.
  apply bind_ok in H as ([[se2 o2] m4] & A & H). apply bind_ok in H' as ([[se2' o2'] m4'] & A' & H').
  destruct (apply_same _ _ _ _ _ _ _ _ _ _ _ _ _ _ _ _ _ S4 O A A') as (S5 & O5 & M5). cbn [fst snd] in *. subst m4'.
  apply bind_ok in H as (se3 & B & H). apply bind_ok in H' as (se3' & B' & H'). injection H as <-. injection H' as <-. cbn [fst snd tk_se tk_jr tk_combo].
  split; [|exact O5]. split; [|repeat (split; [assumption|]); exact F3]. eapply same_add; [exact S5|exact Ru|exact B|exact B'].
Qed.
Lemma apply_strike n t s m bu sn id l : named (sk_name s) -> (exists e, In e more0 /\ s = ev_skill e) ->
  forall k a b o o' m0 y, se_same a b -> more_hits o o' ->
  foldM (apply_target n t s m bu sn id) (enum_from k l) (b, o', m0) = Ok y -> se_same a (fst (fst y)) /\ more_hits o (snd (fst y)).
Proof.
  intros X Su. induction l as [|z l IH]; intros k a b o o' m0 y R O H.
  - cbn in H. injection H as <-. split; [exact R|exact O].
  - cbn [enum_from foldM] in H. apply bind_ok in H as ([[se1 o1] m1] & A & H). unfold apply_target in A. cbv zeta in A.
    apply bind_ok in A as ([[se2 de] m2] & A1 & A).
    assert (R1 : se_same a se2).
    { destruct sn as [fl|e].
      - apply bind_ok in A1 as ([c [e1 c1]] & C & A1). injection A1 as <- <- <-. exact (strike_debuffs _ _ _ _ _ _ R X C).
      - injection A1 as <- <- <-. exact R. }
    apply bind_ok in A as (d & B & A). destruct d as [sp|].
    + apply bind_ok in A as (h & C & A). injection A as <- <- <-. eapply IH; [exact R1| |exact H]. eapply hits_own; [exact O| |exact C]. exact Su.
    + injection A as <- <- <-. eapply IH; [exact R1|exact O|exact H].
Qed.
Lemma application_strike a b o o' e y : tk_same a b -> more_hits o o' -> striking e -> application_event b o' e = Ok y -> tk_same a (fst y) /\ more_hits o (snd y).
Proof.
  intros T O St. pose proof (striking_named _ St) as X. destruct St as (Own & Su). unfold application_event. cbv zeta.
  pose proof (strike_conditional a b (ev_primary e) (ev_skill e) (ev_modifier e) (ev_jr_cond e) T X) as T1.
  destruct (resource_conditional b _ _ _ _) as [b1 m1]. cbn [fst] in T1. intros H.
  apply bind_ok in H as (b2 & A & H). pose proof (strike_added _ _ _ _ _ _ _ T1 Su A) as T2. clear A.
  apply bind_ok in H as ([b3 m2] & A & H). pose proof (strike_combo _ _ _ _ _ _ _ T2 Su A) as T3. cbn [fst] in T3. clear A. destruct T3 as (S3 & J3 & C3 & F3).
  apply bind_ok in H as ([[se1 bu] m3] & A & H).
  assert (S4 : se_same (tk_se a) se1).
  { destruct (fst (ev_snap e)) as [fl|ef].
    - apply bind_ok in A as ([c [e1 c1]] & C & A). injection A as <- <- <-. exact (strike_buffs _ _ _ _ _ S3 X C).
    - injection A as <- <- <-. exact S3. }
  clear A. apply bind_ok in H as ([[se2 o2] m4] & A & H). destruct (apply_strike _ _ _ _ _ _ _ _ X Own _ _ _ _ _ _ _ S4 O A) as (S5 & O5). cbn [fst snd] in *.
  apply bind_ok in H as (se3 & B & H). injection H as <-. cbn [fst snd tk_se tk_jr tk_combo]. split; [|exact O5].
  split; [|repeat (split; [assumption|]); exact F3]. unfold add_to_status_effects in B.
  destruct (Su (if Nat.eqb (List.length (ev_targets e)) 1 then m4 else m3)) as (Bu & De & _). rewrite Bu, De in B. cbn [bind] in B. injection B as <-. exact S5.
Qed.

Lemma snapshot_same_fold n t app pr s m sn id id' jrc cc l :
  forall k a b qu qu' x y, 0 <= k -> se_same a b ->
  foldM (snapshot_target n t app pr s m sn id jrc cc) (enum_from k l) (a, qu) = Ok x ->
  foldM (snapshot_target n t app pr s m sn id' jrc cc) (enum_from k l) (b, qu') = Ok y ->
  se_same (fst x) (fst y)
  /\ exists news news', Permutation (q_heap (snd x)) (news ++ q_heap qu) /\ Permutation (q_heap (snd y)) (news' ++ q_heap qu')
       /\ (q_inv qu -> q_inv (snd x)) /\ (q_inv qu' -> q_inv (snd y))
       /\ List.length news = List.length l /\ Forall (left_at pr s app n) news /\ Forall2 alike news news'.
Proof.
  induction l as [|z l IH]; intros k a b qu qu' x y K R H H'.
  - cbn in H, H'. injection H as <-. injection H' as <-. cbn. split; [exact R|]. exists [], []. repeat split; auto.
  - cbn [enum_from foldM] in H, H'.
    apply bind_ok in H as ([se1 q1] & A & H). apply bind_ok in H' as ([se1' q1'] & A' & H').
    unfold snapshot_target in A, A'. cbv zeta in A, A'.
    apply bind_ok in A as ([[se2 sn1] m2] & A1 & A). apply bind_ok in A' as ([[se2' sn1'] m2'] & A1' & A').
    assert (X : se_same se2 se2' /\ sn1' = sn1 /\ m2' = m2).
    { destruct (snd sn) as [[|]|e].
      - apply bind_ok in A1 as ([c [e1 c1]] & C & A1). apply bind_ok in A1' as ([c' [e1' c1']] & C' & A1').
        injection A1 as <- <- <-. injection A1' as <- <- <-. destruct (same_compile_debuffs _ _ _ _ _ _ _ R C C') as (R1 & E).
        cbn [fst snd] in *. injection E as -> ->. auto.
      - injection A1 as <- <- <-. injection A1' as <- <- <-. auto.
      - injection A1 as <- <- <-. injection A1' as <- <- <-. auto. }
    destruct X as (R1 & -> & ->). clear A1 A1'.
    apply bind_ok in A as (q2 & B & A). apply bind_ok in A' as (q2' & B' & A'). injection A as <- <-. injection A' as <- <-.
    rewrite q_add_eq in B, B'. apply api_add_spec in B as (P & _ & I). apply api_add_spec in B' as (P' & _ & I').
    cbn [stored_event ad_priority ad_primary ad_secondary ad_skill ad_modifier ad_snap ad_id ad_jr_added ad_jr_cond ad_combo_cond ad_targets] in P, P'.
    assert (K1 : 0 <= k + 1) by lia.
    destruct (IH _ _ _ _ _ _ _ K1 R1 H H') as (E1 & news & news' & Q & Q' & J & J' & Ln & W & V). split; [exact E1|].
    eexists (news ++ [_])%list, (news' ++ [_])%list. rewrite <- !app_assoc. cbn [List.app].
    split; [rewrite Q; apply Permutation_app_head, P|]. split; [rewrite Q'; apply Permutation_app_head, P'|].
    split; [auto|]. split; [auto|]. split; [rewrite app_length; cbn; lia|]. split.
    + apply Forall_app. split; [exact W|]. constructor; [|constructor]. unfold left_at. cbn. repeat split; [apply target_time_ge, K|].
      intros ->. reflexivity.
    + apply Forall2_app; [exact V|]. constructor; [|constructor]. reflexivity.
Qed.
Lemma snapshot_same a b qu qu' e e' app x y : tk_same a b -> alike e e' ->
  snapshot_event a qu e app = Ok x -> snapshot_event b qu' e' app = Ok y ->
  tk_same (fst x) (fst y)
  /\ exists news news', Permutation (q_heap (snd x)) (news ++ q_heap qu) /\ Permutation (q_heap (snd y)) (news' ++ q_heap qu')
       /\ (q_inv qu -> q_inv (snd x)) /\ (q_inv qu' -> q_inv (snd y))
       /\ List.length news = List.length (ev_targets e) /\ left_by e app news /\ Forall2 alike news news'.
Proof.
  intros T L. destruct (alike_fields _ _ L) as (L1 & L2 & L3 & L4 & L5 & L6 & L7 & L8 & L9 & L10). unfold snapshot_event. cbv zeta. rewrite L1, L2, L4, L5, L6, L7, L8, L9, L10.
  intros H H'. destruct T as (S & J & K & F).
  apply bind_ok in H as ([[se1 sn0] m1] & A & H). apply bind_ok in H' as ([[se1' sn0'] m1'] & A' & H').
  assert (X : se_same se1 se1' /\ sn0' = sn0 /\ m1' = m1).
  { destruct (fst (ev_snap e)) as [[|]|ef].
    - apply bind_ok in A as ([c [e1 c1]] & C & A). apply bind_ok in A' as ([c' [e1' c1']] & C' & A').
      injection A as <- <- <-. injection A' as <- <- <-. destruct (same_compile_buffs _ _ _ _ _ _ S C C') as (R1 & E).
      cbn [fst snd] in *. injection E as -> ->. auto.
    - injection A as <- <- <-. injection A' as <- <- <-. auto.
    - injection A as <- <- <-. injection A' as <- <- <-. auto. }
  destruct X as (S1 & -> & ->). clear A A'. rewrite J, K in H'.
  assert (T1 : tk_same (mkTrackers se1 (tk_jr a) (tk_combo a)) (mkTrackers se1' (tk_jr a) (tk_combo a))) by (split; [exact S1|split; [reflexivity|split; [reflexivity|exact F]]]).
  set (skip := ev_jr_cond e || negb (sk_job_resources_snapshot (ev_skill e))) in *.
  destruct (same_conditional _ _ (ev_primary e) (ev_skill e) m1 skip T1) as [T2 M2].
  destruct (resource_conditional (mkTrackers se1 _ _) _ _ _ _) as [a2 m2], (resource_conditional (mkTrackers se1' _ _) _ _ _ _) as [b2 m2']. cbn [fst snd] in *. subst m2'.
  apply bind_ok in H as ([a3 m3] & A & H). apply bind_ok in H' as ([b3 m3'] & A' & H'). destruct (same_combo _ _ _ _ _ _ _ _ T2 A A') as [T3 M3].
  cbn [fst snd] in *. subst m3'. clear A A'.
  apply bind_ok in H as (a4 & A & H). apply bind_ok in H' as (b4 & A' & H'). pose proof (same_added _ _ _ _ _ _ _ _ T3 A A') as (S4 & J4 & K4 & F4). clear A A'.
  apply bind_ok in H as ([se2 q2] & A & H). apply bind_ok in H' as ([se2' q2'] & A' & H'). injection H as <-. injection H' as <-.
  destruct (snapshot_same_fold _ _ _ _ _ _ _ _ _ _ _ _ _ _ _ _ _ _ _ (Z.le_refl 0) S4 A A')
    as (E & news & news' & P & P' & I & I' & Ln & W & V).
  cbn [fst snd tk_se tk_jr tk_combo] in *. split; [split; [exact E|repeat (split; [assumption|]); exact F4]|]. exists news, news'. repeat (split; [assumption|]).
  exact V.
Qed.
Lemma snapshot_strike_fold n t app pr s m sn id jrc cc l : named (sk_name s) ->
  forall k a b qu y, 0 <= k -> se_same a b ->
  foldM (snapshot_target n t app pr s m sn id jrc cc) (enum_from k l) (b, qu) = Ok y ->
  se_same a (fst y)
  /\ exists news, Permutation (q_heap (snd y)) (news ++ q_heap qu) /\ (q_inv qu -> q_inv (snd y)) /\ List.length news = List.length l /\ Forall (left_at pr s app n) news.
Proof.
  intros X. induction l as [|z l IH]; intros k a b qu y K R H.
  - cbn in H. injection H as <-. cbn. split; [exact R|]. exists []. repeat split; auto.
  - cbn [enum_from foldM] in H. apply bind_ok in H as ([se1 q1] & A & H). unfold snapshot_target in A. cbv zeta in A.
    apply bind_ok in A as ([[se2 sn1] m2] & A1 & A).
    assert (R1 : se_same a se2).
    { destruct (snd sn) as [[|]|e].
      - apply bind_ok in A1 as ([c [e1 c1]] & C & A1). injection A1 as <- <- <-. exact (strike_debuffs _ _ _ _ _ _ R X C).
      - injection A1 as <- <- <-. exact R.
      - injection A1 as <- <- <-. exact R. }
    clear A1. apply bind_ok in A as (q2 & B & A). injection A as <- <-. rewrite q_add_eq in B. apply api_add_spec in B as (P & _ & I).
    cbn [stored_event ad_priority ad_primary ad_secondary ad_skill ad_modifier ad_snap ad_id ad_jr_added ad_jr_cond ad_combo_cond ad_targets] in P.
    assert (K1 : 0 <= k + 1) by lia.
    destruct (IH _ _ _ _ _ K1 R1 H) as (E1 & news & Q & J & Ln & W). split; [exact E1|].
    eexists (news ++ [_])%list. rewrite <- !app_assoc. cbn [List.app].
    split; [rewrite Q; apply Permutation_app_head, P|]. split; [auto|]. split; [rewrite app_length; cbn; lia|].
    apply Forall_app. split; [exact W|]. constructor; [|constructor]. unfold left_at. cbn. repeat split; [apply target_time_ge, K|]. intros ->. reflexivity.
Qed.
Lemma snapshot_strike a b qu e app y : tk_same a b -> striking e -> snapshot_event b qu e app = Ok y ->
  tk_same a (fst y)
  /\ exists news, Permutation (q_heap (snd y)) (news ++ q_heap qu) /\ (q_inv qu -> q_inv (snd y)) /\ List.length news = List.length (ev_targets e) /\ left_by e app news.
Proof.
  intros T St. pose proof (striking_named _ St) as X. destruct St as (_ & Su). unfold snapshot_event. cbv zeta. intros H. destruct T as (S & J & K & F).
  apply bind_ok in H as ([[se1 sn0] m1] & A & H).
  assert (S1 : se_same (tk_se a) se1).
  { destruct (fst (ev_snap e)) as [[|]|ef].
    - apply bind_ok in A as ([c [e1 c1]] & C & A). injection A as <- <- <-. exact (strike_buffs _ _ _ _ _ S X C).
    - injection A as <- <- <-. exact S.
    - injection A as <- <- <-. exact S. }
  clear A. assert (T1 : tk_same a (mkTrackers se1 (tk_jr b) (tk_combo b))) by (split; [exact S1|repeat (split; [assumption|]); exact F]).
  set (skip := ev_jr_cond e || negb (sk_job_resources_snapshot (ev_skill e))) in *.
  pose proof (strike_conditional _ _ (ev_primary e) (ev_skill e) m1 skip T1 X) as T2.
  destruct (resource_conditional (mkTrackers se1 _ _) _ _ _ _) as [b2 m2]. cbn [fst] in T2.
  apply bind_ok in H as ([b3 m3] & A & H). pose proof (strike_combo _ _ _ _ _ _ _ T2 Su A) as T3. cbn [fst] in T3. clear A.
  apply bind_ok in H as (b4 & A & H). pose proof (strike_added _ _ _ _ _ _ _ T3 Su A) as (S4 & J4 & K4 & F4). clear A.
  apply bind_ok in H as ([se2 q2] & A & H). injection H as <-.
  destruct (snapshot_strike_fold _ _ _ _ _ _ _ _ _ _ _ X _ _ _ _ _ (Z.le_refl 0) S4 A) as (E & news & P & I & L & W).
  cbn [fst snd tk_se tk_jr tk_combo] in *. split; [split; [exact E|repeat (split; [assumption|]); exact F4]|]. exists news. repeat (split; [assumption|]).
  eapply Forall_impl; [|exact W]. unfold left_at. intros z (F1 & F2 & F3 & F5 & F6). unfold time_to_prio in F1. repeat split; auto.
Qed.

(** ** Steps *)
Definition tk_agree (T : Z) (a b : trackers) : Prop := agree T (tk_se a) (tk_se b) /\ tk_jr b = tk_jr a /\ tk_combo b = tk_combo a /\ asks_none (tk_jr a).

Lemma step_same T a b qu qu' o o' e e' x y : tk_agree T a b -> T <= ev_primary e -> more_hits o o' -> undisturbed e -> alike e e' ->
  damage_step a qu o e = Ok x -> damage_step b qu' o' e' = Ok y ->
  tk_agree (ev_primary e) (fst (fst x)) (fst (fst y)) /\ more_hits (snd x) (snd y)
  /\ exists news news', Permutation (q_heap (snd (fst x))) (news ++ q_heap qu) /\ Permutation (q_heap (snd (fst y))) (news' ++ q_heap qu')
       /\ (q_inv qu -> q_inv (snd (fst x))) /\ (q_inv qu' -> q_inv (snd (fst y))) /\ leaves e news /\ Forall2 alike news news'.
Proof.
  intros (S & J & K & F) Le O R L. unfold damage_step, leaves. cbv zeta. destruct (alike_fields _ _ L) as (_ & L2 & L3 & _).
  set (a0 := mkTrackers (expire_status_effects (ev_primary e) (tk_se a)) (tk_jr a) (tk_combo a)).
  set (b0 := mkTrackers (expire_status_effects (ev_primary e') (tk_se b)) (tk_jr b) (tk_combo b)).
  assert (Tm : tk_same a0 b0).
  { unfold a0, b0. rewrite L2. split; [cbn; apply S, Le|]. cbn. repeat (split; [assumption|]). exact F. }
  assert (Aw : forall u v, tk_same u v -> tk_agree (ev_primary e) u v) by (intros u v (M1 & M2); split; [apply agree_here, M1|exact M2]).
  rewrite L3. destruct (ev_secondary e) as [app|] eqn:Sec; intros H H'.
  - apply bind_ok in H as ([tk1 q1] & A & H). apply bind_ok in H' as ([tk1' q1'] & A' & H'). injection H as <-. injection H' as <-.
    destruct (snapshot_same _ _ _ _ _ _ _ _ _ Tm L A A') as (E & news & news' & P & P' & I & I' & Ln & W & V). cbn [fst snd] in *. split; [apply Aw, E|]. split; [exact O|].
    exists news, news'. repeat (split; [assumption|]). split; [split; assumption|exact V].
  - apply bind_ok in H as ([tk1 o1] & A & H). apply bind_ok in H' as ([tk1' o1'] & A' & H'). injection H as <-. injection H' as <-.
    destruct (application_same _ _ _ _ _ _ _ _ Tm O R L A A') as (E & W). cbn [fst snd] in *. split; [apply Aw, E|]. split; [exact W|].
    exists [], []. repeat (split; [assumption || reflexivity || auto|]). constructor.
Qed.
Lemma step_strike T a b qu o o' e y : tk_agree T a b -> T <= ev_primary e -> more_hits o o' -> striking e -> damage_step b qu o' e = Ok y ->
  tk_agree (ev_primary e) a (fst (fst y)) /\ more_hits o (snd y)
  /\ exists news, Permutation (q_heap (snd (fst y))) (news ++ q_heap qu) /\ (q_inv qu -> q_inv (snd (fst y))) /\ leaves e news.
Proof.
  intros (S & J & K & F) Le O Hp. unfold damage_step, leaves. cbv zeta.
  set (a0 := mkTrackers (expire_status_effects (ev_primary e) (tk_se a)) (tk_jr a) (tk_combo a)).
  set (b0 := mkTrackers (expire_status_effects (ev_primary e) (tk_se b)) (tk_jr b) (tk_combo b)).
  assert (Tm : tk_same a0 b0) by (split; [cbn; apply S, Le|]; cbn; repeat (split; [assumption|]); exact F).
  assert (Aw : forall v, tk_same a0 v -> tk_agree (ev_primary e) a v) by (intros v (M1 & M2); split; [apply agree_expired, M1|exact M2]).
  destruct (ev_secondary e) as [app|] eqn:Sec; intros H.
  - apply bind_ok in H as ([tk1 q1] & A & H). injection H as <-.
    destruct (snapshot_strike _ _ _ _ _ _ Tm Hp A) as (E & news & P & I & Ln & W). cbn [fst snd] in *. split; [apply Aw, E|]. split; [exact O|].
    exists news. repeat (split; [assumption|]). assumption.
  - apply bind_ok in H as ([tk1 o1] & A & H). injection H as <-.
    destruct (application_strike _ _ _ _ _ _ Tm O Hp A) as (E & W). cbn [fst snd] in *. split; [apply Aw, E|]. split; [exact W|].
    exists []. repeat (split; [reflexivity || auto|]). reflexivity.
Qed.

(** ** The loop *)
Lemma alike_orderly e e' : alike e e' -> orderly e -> orderly e'.
Proof. intros L O. destruct (alike_fields _ _ L) as (L1 & L2 & L3 & _ & _ & _ & L7 & _). unfold orderly in *. rewrite L1, L2, L3, L7. exact O. Qed.
Lemma alike_key a b a' b' : alike a a' -> alike b b' -> key_le a' b' -> key_le a b.
Proof.
  intros A B. destruct (alike_fields _ _ A) as (A1 & _ & _ & A2 & _). destruct (alike_fields _ _ B) as (B1 & _ & _ & B2 & _). unfold key_le. rewrite A1, A2, B1, B2. auto.
Qed.
Lemma undisturbed_same e x : ev_skill x = ev_skill e -> undisturbed e -> undisturbed x.
Proof. unfold undisturbed. intros ->. auto. Qed.
Lemma striking_same e x : ev_skill x = ev_skill e -> striking e -> striking x.
Proof. unfold striking. intros ->. auto. Qed.

Lemma loops_same fuel' : forall fuel T a b qu qu' o o' l l' more x y,
  q_inv qu -> q_inv qu' -> Permutation (q_heap qu) l -> Permutation (q_heap qu') (more ++ l') -> Forall2 alike l l' ->
  Forall orderly l -> distinct_places l -> Forall undisturbed l -> Forall (fun e => T <= ev_primary e) l ->
  Forall orderly more -> Forall striking more -> Forall (fun e => T <= ev_primary e) more ->
  tk_agree T a b -> more_hits o o' ->
  damage_loop fuel a qu o = Ok x -> damage_loop fuel' b qu' o' = Ok y -> more_hits (snd x) (snd y).
Proof.
  induction fuel' as [|fuel' IH]; intros fuel T a b qu qu' o o' l l' more x y I I' P P' J O D R Tl Om Hm Tm Tk Z H H'.
  all: cbn [damage_loop] in H'; destruct (q_is_empty qu') eqn:Em'; try discriminate H'.
  1,2: injection H' as <-; apply empty_heap in Em'; rewrite Em' in P'; apply Permutation_nil, app_eq_nil in P' as [-> ->];
    inversion J; subst; apply Permutation_sym, Permutation_nil in P; destruct fuel; cbn [damage_loop] in H; unfold q_is_empty in H; rewrite P in H; injection H as <-; exact Z.
  apply bind_ok in H' as ([e' q1'] & G' & H'). apply q_get_next_spec in G' as (Q' & _ & I1' & M'); [|exact I'].
  apply bind_ok in H' as ([[tk1' q2'] o1'] & S' & H').
  assert (Je' : In e' (more ++ l')) by (apply (Permutation_in _ P'), (Permutation_in _ (Permutation_sym Q')); left; reflexivity).
  assert (Ol' : Forall orderly l') by (clear - J O; induction J as [|u v l l' r J IH]; [constructor|inversion O; subst; constructor; [eapply alike_orderly; eassumption|apply IH; assumption]]).
  assert (Oall : forall z, In z (more ++ l') -> orderly z) by (intros z Iz; apply in_app_or in Iz as [Iz|Iz]; [rewrite Forall_forall in Om|rewrite Forall_forall in Ol']; auto).
  assert (Late : forall z, In z (more ++ l') -> ev_primary e' <= ev_primary z).
  { intros z Iz. apply key_time; [apply Oall, Je'|apply Oall, Iz|]. apply M', (Permutation_in _ (Permutation_sym P')), Iz. }
  assert (LateL : Forall (fun z => ev_primary e' <= ev_primary z) l).
  { apply Forall_forall. intros z Iz. destruct (forall2_in_l alike l l' z J Iz) as (p & Ip & Lp). destruct (alike_fields _ _ Lp) as (_ & Lq & _). rewrite <- Lq. apply Late, in_or_app. auto. }
  assert (LateM : Forall (fun z => ev_primary e' <= ev_primary z) more) by (apply Forall_forall; intros z Iz; apply Late, in_or_app; auto).
  apply in_app_or in Je' as [Je'|Je'].
  - (* a further attack *)
    apply in_split in Je' as (m1 & m2 & ->).
    assert (He : striking e' /\ orderly e' /\ T <= ev_primary e').
    { rewrite Forall_forall in Hm, Om, Tm. assert (In e' (m1 ++ e' :: m2)) by (apply in_or_app; right; left; reflexivity). auto. }
    destruct He as (He & Oe & Te).
    destruct (step_strike _ _ _ _ _ _ _ _ Tk Te Z He S') as (Tk1 & Zo & news & Rn & X & N). cbn [fst snd] in *.
    destruct (follow_orderly _ _ Oe N) as (On & Fn).
    assert (Pm : Permutation (m1 ++ e' :: m2) (e' :: m1 ++ m2)) by (symmetry; apply Permutation_middle).
    assert (Q1' : Permutation (q_heap q1') ((m1 ++ m2) ++ l')).
    { apply (Permutation_cons_inv (a := e')). rewrite <- Q', P', Pm. reflexivity. }
    apply (forall_perm _ _ _ Pm) in Om, Hm, LateM. inversion Om; subst. inversion Hm; subst. inversion LateM; subst.
    apply (IH fuel (ev_primary e') a tk1' qu q2' o o1' l l' (news ++ m1 ++ m2)%list x y); auto.
    + rewrite Rn, Q1', <- !app_assoc. reflexivity.
    + apply Forall_app. split; assumption.
    + apply Forall_app. split; [|assumption]. eapply Forall_impl; [|exact Fn]. cbn. intros z (_ & Ez). exact (striking_same _ _ Ez He).
    + apply Forall_app. split; [|assumption]. eapply Forall_impl; [|exact Fn]. cbn. intros z (Lz & _). exact Lz.
  - apply in_split in Je' as (l1' & l2' & E').
    rewrite E' in J. apply Forall2_app_inv_r in J as (l1 & l2z & J1 & J2 & E1). inversion J2 as [|z e0 l2 m2 Jz J3]; subst e0 m2 l2z.
    destruct fuel as [|fuel]; cbn [damage_loop] in H; destruct (q_is_empty qu) eqn:Em; try discriminate H.
    1,2: apply empty_heap in Em; rewrite Em in P; apply Permutation_nil in P; rewrite P in E1; symmetry in E1; apply app_eq_nil in E1 as [_ E1]; discriminate E1.
    apply bind_ok in H as ([e q1] & G & H). apply q_get_next_spec in G as (Q & _ & I1 & M); [|exact I].
    assert (Je : In e l) by (apply (Permutation_in _ P), (Permutation_in _ (Permutation_sym Q)); left; reflexivity).
    assert (z = e).
    { destruct (forall2_in_l alike l l' e) as (p & Jp & Rp); [subst l l'; apply Forall2_app; assumption|exact Je|].
      assert (L1 : key_le z e).
      { apply (alike_key z e e' p Jz Rp). apply M', (Permutation_in _ (Permutation_sym P')), in_or_app. right. exact Jp. }
      assert (Iz : In z l) by (subst l; apply in_or_app; right; left; reflexivity).
      assert (L2 : key_le e z) by (apply M, (Permutation_in _ (Permutation_sym P)), Iz).
      destruct (key_le_same _ _ L1 L2). apply (place_unique l); assumption. }
    subst z. apply bind_ok in H as ([[tk1 q2] o1] & S & H).
    assert (He : undisturbed e /\ orderly e /\ T <= ev_primary e) by (rewrite Forall_forall in R, O, Tl; auto). destruct He as (He & Oe & Te).
    assert (Et : ev_primary e' = ev_primary e) by (destruct (alike_fields _ _ Jz) as (_ & Et & _); exact Et). rewrite Et in *.
    destruct (step_same _ _ _ _ _ _ _ _ _ _ _ Tk Te Z He Jz S S') as (T1 & Z1 & news & news' & Rn & Rn' & X & X' & N & V). cbn [fst snd] in *.
    destruct (follow_orderly _ _ Oe N) as (_ & Fn).
    assert (Pe : Permutation l (e :: l1 ++ l2)) by (subst l; symmetry; apply Permutation_middle).
    assert (Q1 : Permutation (q_heap q1) (l1 ++ l2)) by (apply (Permutation_cons_inv (a := e)); rewrite <- Q, P; exact Pe).
    assert (Q1' : Permutation (q_heap q1') (more ++ l1' ++ l2')).
    { apply (Permutation_cons_inv (a := e')). rewrite <- Q', P', E'. rewrite !app_assoc. symmetry. apply Permutation_middle. }
    destruct (step_orderly e (l1 ++ l2) news) as [O1 D1]; [exact (forall_perm _ _ _ Pe O)|exact (places_perm _ _ Pe D)|exact N|].
    apply (forall_perm _ _ _ Pe) in R, LateL. inversion R; subst. inversion LateL; subst.
    apply (IH fuel (ev_primary e) tk1 tk1' q2 q2' o1 o1' (news ++ l1 ++ l2)%list (news' ++ l1' ++ l2')%list more x y); auto.
    + rewrite Rn. apply Permutation_app_head, Q1.
    + rewrite Rn', Q1'. rewrite !app_assoc. apply Permutation_app_tail, Permutation_app_tail, Permutation_app_comm.
    + apply Forall2_app; [exact V|apply Forall2_app; assumption].
    + apply Forall_app. split; [|assumption]. eapply Forall_impl; [|exact Fn]. cbn. intros z (_ & Ez). exact (undisturbed_same _ _ Ez He).
    + apply Forall_app. split; [|assumption]. eapply Forall_impl; [|exact Fn]. cbn. intros z (Lz & _). exact Lz.
Qed.
End Strike.

Lemma alikes l : forall l', map anon l' = map anon l -> Forall2 alike l l'.
Proof.
  induction l as [|e l IH]; intros [|e' l'] H; try discriminate H; [constructor|]. cbn [map] in H.
  assert (H1 : anon e' = anon e /\ map anon l' = map anon l) by (split; congruence). constructor; [apply H1|apply IH, H1].
Qed.

Theorem strikes_keep_hits st lib tk more qu qu' tk1 tk1' q1 q1' l l' :
  q_inv qu -> q_inv qu' -> joined_by more (q_heap qu) (q_heap qu') -> Forall (fun e => grants_nothing (ev_skill e)) more -> uncounted_by lib st more (q_heap qu) ->
  Forall orderly more -> Forall orderly (q_heap qu) -> distinct_places (q_heap qu) -> db_init st lib = Ok tk ->
  get_damage_instances tk qu = Ok (tk1, q1, l) -> get_damage_instances tk qu' = Ok (tk1', q1', l') ->
  further_hits more l l'.
Proof.
  unfold get_damage_instances, joined_by. intros I I' P Gn U Om0 O D N H H'.
  apply bind_ok in H as ([[tka qa] oa] & R & H). apply bind_ok in H' as ([[tkb qb] ob] & R' & H').
  injection H as <- <- <-. injection H' as <- <- <-.
  apply Permutation_sym, Permutation_map_inv in P as (k & E & P). rewrite map_app in E. symmetry in E. apply map_eq_app in E as (more' & l2 & -> & E1 & E2).
  assert (Fm' : Forall (striking more) more' /\ Forall orderly more').
  { clear - Gn Om0 E1. apply alikes in E1. assert (W : forall e, In e more -> In e more) by auto. revert W. generalize more at 2 3. intros big W.
    induction E1 as [|e e' m m' A F IH]; [split; constructor|]. inversion Gn; subst. inversion Om0; subst.
    destruct (IH H2 H4) as (IH1 & IH2); [intros z Iz; apply W; right; exact Iz|]. destruct (alike_fields _ _ A) as (_ & _ & _ & Sk & _). split; constructor; auto.
    - split; [exists e; split; [apply W; left; reflexivity|exact Sk]|]. rewrite Sk. assumption.
    - eapply alike_orderly; eassumption. }
  destruct Fm' as (Hm & Om).
  destruct (bounded_below (q_heap qu)) as (T1 & B1). destruct (bounded_below more') as (T2 & B2).
  assert (G : more_hits more oa ob).
  { refine (loops_same more _ _ (Z.min T1 T2) tk tk qu qu' [] [] (q_heap qu) l2 more' _ _ I I' (Permutation_refl _) P (alikes _ _ E2) O D _ _ Om Hm _ _ _ R R').
    - apply Forall_forall. intros e Ie sp Is n (e0 & I0 & <-). exact (proj1 (U e0 I0) e sp Ie Is).
    - eapply Forall_impl; [|exact B1]. cbn. intros e. lia.
    - eapply Forall_impl; [|exact B2]. cbn. intros e. lia.
    - unfold db_init, new_trackers in N. apply bind_ok in N as (prio & Np & N). apply bind_ok in N as (rs & Nr & N). apply bind_ok in N as (br & Nb & N). injection N as <-.
      split; [|split; [reflexivity|split; [reflexivity|]]].
      + apply agree_here. split; [reflexivity|]. split; [reflexivity|]. split; [reflexivity|]. split; [intros n _; apply quiet_nil|]. intros x n _. apply quiet_nil.
      + intros n (e0 & I0 & <-) k cfg l Ik In. cbn in Ik. apply in_map_iff in Ik as ([k' cfg'] & Ek & Ik). injection Ek as <- <- <-.
        exact (proj2 (U e0 I0) rs k' cfg' Nr Ik In).
    - exists []. split; [reflexivity|]. intros i []. }
  destruct G as (own & G1 & G2). exists own. split; [|exact G2].
  eapply Permutation_trans; [apply Permutation_map, sort_by_perm|]. eapply Permutation_trans; [exact G1|].
  apply Permutation_map, Permutation_app_head, Permutation_sym, sort_by_perm.
Qed.

(** The damage of a hit does not depend on the id. *)
Lemma row_unnumbered st i : row_of st (unnumbered i) = row_of st i.
Proof. reflexivity. Qed.
Lemma rows_further st own l l' : Permutation (map unnumbered l') (map unnumbered (own ++ l)) ->
  Permutation (map (row_of st) l') (map (row_of st) (own ++ l)).
Proof. intros P. apply (Permutation_map (row_of st)) in P. rewrite !map_map in P. exact P. Qed.
