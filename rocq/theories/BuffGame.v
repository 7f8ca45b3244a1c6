(** * Buffs of the shipped libraries (C86) *)

From Coq Require Import ZArith QArith List String Bool Lia Permutation.
From Verif Require Import Base BaseFacts PyFacts Strings Types Lookup JobResource Stats Library LibraryFacts Events Rotation DamageBuild Damage GameLib GameFacts GameCheck SafeCheck ExampleCheck GamePoints GameLoad GameProps
  SpecHit SpecGame SpecPlay SpecTimeline SpecRun SpecLater SpecReplay SpecShuffle SpecIdle SpecCause SpecGear RunProps SafeGame ShuffleFacts IdleFacts MoveGame IdleGame GearProps SpecBuff BuffProps.
Import ListNotations.
Open Scope string_scope.
Open Scope Z_scope.

Lemma unnamed_not l n : unnamed l = true -> In n l -> In n shipped_buffs -> False.
Proof.
  unfold unnamed. rewrite forallb_forall. intros H I K. specialize (H n I). apply negb_true_iff in H. rewrite <- not_true_iff_false in H. apply H, smem_spec, K.
Qed.
Lemma q0b_zero x : q0b x = true -> x = 0%Q.
Proof. unfold q0b. destruct x as [[|p|p] [d|d|]]; intros; try discriminate; reflexivity. Qed.
Lemma forced_default f : forced_eqb f F_DEFAULT = true -> f = F_DEFAULT.
Proof. destruct f; intros; try discriminate; reflexivity. Qed.
Lemma supportiveb_sound e : supportiveb e = true -> supportive e.
Proof.
  unfold supportiveb. rewrite !andb_true_iff, !Qle_bool_iff, !negb_true_iff, Z.eqb_eq. intros (A & B & C & D & E & F & G & H & I & J & K & L & M & N).
  apply q0b_zero in F, G. apply forced_default in J, K.
  assert (E' : main_stat_mult e = 1%Q) by (destruct (main_stat_mult e) as [[|[p|p|]|p] [d|d|]]; try discriminate; reflexivity).
  assert (H' : flat_cast_time_reduction e = Fin 0) by (destruct (flat_cast_time_reduction e) as [[|p|p]|]; try discriminate; reflexivity).
  assert (M' : expires_status_effects e = []) by (destruct (expires_status_effects e); [reflexivity|discriminate]).
  unfold supportive. tauto.
Qed.
Lemma supportb_sound s : supportb s = true -> support s.
Proof.
  unfold supportb. rewrite andb_true_iff, forallb_forall. intros (K & F). split; [|intros e I; apply supportiveb_sound, F, I].
  intros m. unfold get_damage_spec, get_follow_up_skills, get_combo_spec, get_job_resource_spec.
  destruct (sk_damage s); [|discriminate|discriminate]. destruct (sk_follow_ups s) as [[|]|]; [|discriminate|discriminate].
  destruct (sk_combo s) as [[|]|]; [|discriminate|discriminate]. destruct (sk_job_resource s) as [[|]|]; [|discriminate|discriminate]. repeat split.
Qed.
Lemma shipped_support_ok v lv lib n j s p : create_skill_library v lv = Ok lib -> get_skill lib n j = Ok s -> part_of p s -> support_ok p = true.
Proof.
  intros C G P. pose proof (shipped_part v lv lib n j s p C G P) as K. unfold run_part_ok in K. apply andb_true_iff in K as [_ K]. apply andb_true_iff in K as [_ K]. exact K.
Qed.
Lemma follow_up_named v lv lib n j s : create_skill_library v lv = Ok lib -> get_skill lib n j = Ok s -> forall p, part_of p s -> p = s \/ ~ In (sk_name p) shipped_buffs.
Proof.
  intros C G. assert (A : forall t, part_of t s -> forall p, part_of p t -> p = t \/ ~ In (sk_name p) shipped_buffs).
  { intros t T p P. induction P as [t|t fu p I P IH]; [left; reflexivity|]. right.
    assert (T' : part_of (fu_skill fu) s) by (eapply part_trans; [apply (part_follow_up t fu); [exact I|apply part_self] | exact T]).
    destruct (IH T') as [->|N]; [|exact N]. intros K. pose proof (shipped_support_ok _ _ _ _ _ _ t C G T) as O. unfold support_ok in O. rewrite !andb_true_iff in O. destruct O as (_ & O & _).
    eapply unnamed_not; [exact O| |exact K]. apply in_map_iff. exists fu. split; [reflexivity|exact I]. }
  exact (A s (part_self s)).
Qed.
Lemma loaded_unranked v lv lib j : create_skill_library v lv = Ok lib ->
  (forall p n, get_status_effect_priority lib j = Ok p -> In n p -> In n shipped_buffs -> False)
  /\ forall rs n c a, get_all_resource_settings lib j = Ok rs -> In (n, c) rs -> In a (jrs_allowlist c) -> In a shipped_buffs -> False.
Proof.
  intros C. destruct (loaded v lv) as (js & ps & J & P & N & K & _ & M & _ & X).
  { apply loads_iff. exists lib. exact C. }
  rewrite C in X. injection X as ->. destruct (loaded_nodup js ps _ _ N K M J) as [N1 _].
  assert (R : forall x, In x js -> unranked x = true).
  { intros x I. assert (L : loads v lv) by (apply loads_iff; eauto). pose proof (loaded_runs v lv js ps L J P) as R. unfold runs_at in R. apply andb_true_iff in R as [R _].
    rewrite forallb_forall in R. specialize (R x I). apply andb_true_iff in R as [_ R]. apply andb_true_iff in R as [_ R]. exact R. }
  split.
  - intros p n E I. unfold get_status_effect_priority, point_lib, lib_of in E. cbn [lib_priority] in E.
    destruct (dget j (map (fun x => (lj_job x, set_priority (cs_priority (fst x)))) js)) as [p'|] eqn:D; [|discriminate E]. cbn [of_option] in E. injection E as <-.
    apply (dget_jobs (fun x => set_priority (cs_priority (fst x))) js j _ N1) in D as (x & Ix & <- & <-).
    specialize (R x Ix). unfold unranked in R. apply andb_true_iff in R as [R _]. exact (unnamed_not _ n R I).
  - intros rs n c a E I Ia. unfold get_all_resource_settings, point_lib, lib_of in E. cbn [lib_resources] in E.
    destruct (dget j (map (fun x => (lj_job x, set_resources (cs_resources (fst x)))) js)) as [rs'|] eqn:D; [|discriminate E]. cbn [of_option] in E. injection E as <-.
    apply (dget_jobs (fun x => set_resources (cs_resources (fst x))) js j _ N1) in D as (x & Ix & <- & <-).
    specialize (R x Ix). unfold unranked in R. apply andb_true_iff in R as [_ R]. rewrite forallb_forall in R. apply set_resources_in in I. specialize (R _ I). cbn [snd] in R. apply andb_true_iff in R as [R _]. exact (unnamed_not _ a R Ia).
Qed.

Theorem shipped_with_support v lv extra b :
  create_skill_library v lv = Ok (b_library b) -> built b -> (forall n, extra n = true -> In n shipped_buffs) ->
  (forall x, In x (b_sequence b) -> extra (sk_name (sq_skill x)) = false) -> with_support extra b.
Proof.
  intros C B X Q. destruct (loaded_unranked v lv (b_library b) (st_job (b_stats b)) C) as (U1 & U2).
  assert (G : forall s, In s (skills_of b) -> exists n j, get_skill (b_library b) n j = Ok s) by (apply reach_skills, built_reachable, B).
  assert (Ns : forall n, (In n shipped_buffs -> False) -> extra n = false) by (intros n H; apply not_true_iff_false; intros E; apply H, X, E).
  assert (O : forall s p e, In s (skills_of b) -> part_of p s -> In e (SpecGame.effects_of p) -> (0 <= damage_mult e)%Q /\ uses_freeb e = true).
  { intros s p e I P Ie. destruct (G s I) as (n & j & Gs). pose proof (shipped_support_ok _ _ _ _ _ _ p C Gs P) as O. unfold support_ok in O. rewrite !andb_true_iff in O.
    destruct O as (_ & _ & O). rewrite forallb_forall in O. specialize (O e Ie). apply andb_true_iff in O as (O & O'). split; [apply Qle_bool_iff, O|exact O']. }
  split; [split; [exact Q|split]|split; [split|]].
  - intros s I E. destruct (G s I) as (n & j & Gs). pose proof (shipped_support_ok _ _ _ _ _ _ s C Gs (part_self s)) as K. unfold support_ok in K. apply andb_true_iff in K as (K & _).
    rewrite (proj2 (smem_spec (sk_name s) support_names) (X _ E)) in K. apply supportb_sound, K.
  - intros s p I E P. destruct (G s I) as (n & j & Gs). split; [|intros e Ie; exact (proj1 (O s p e I P Ie))].
    destruct (follow_up_named _ _ _ _ _ _ C Gs p P) as [->|N]; [exact E|]. apply Ns, N.
  - intros s p e n I _ P Ie En. pose proof (proj2 (O s p e I P Ie)) as U. unfold uses_freeb in U.
    assert (A : match se_allowlist e with Some l => unnamed l && no_auto l | None => false end = true -> exists l, se_allowlist e = Some l /\ ~ In n l).
    { destruct (se_allowlist e) as [l|]; [|discriminate]. intros K. apply andb_true_iff in K as [K _]. exists l. split; [reflexivity|]. intros In'. exact (unnamed_not l n K In' (X n En)). }
    unfold uses_apart. destruct (num_uses e), (max_num_uses e); auto.
  - intros rs n cfg a E I Ia. apply Ns. exact (U2 rs n cfg a E I Ia).
  - intros p n E I. apply Ns. exact (U1 p n E I).
Qed.

Theorem shipped_support_damage v lv extra g st lib snap start w target b0 l b r hits hits' :
  create_skill_library v lv = Ok lib -> gear_nonneg g -> stats_of g = Ok st -> (forall n, extra n = true -> In n shipped_buffs) ->
  rb_init st lib snap false false start w target = Ok b0 -> follow b0 l = Ok b -> (forall x, In x (b_sequence b) -> extra (sk_name (sq_skill x)) = false) -> distinct_times b ->
  get_skill_timing b = Ok r -> Forall orderly (timeline r) -> distinct_places (timeline r) ->
  hits_with st lib snap false false start w target (unsupported extra b0 l) = Ok hits ->
  hits_with st lib snap false false start w target l = Ok hits' ->
  exists a a', Permutation hits a /\ Permutation hits' a'
    /\ Forall2 (fun x x' => same_place x x' /\ forall c, row_of st x = Ok c -> exists c', row_of st x' = Ok c'
         /\ forall u, drawn u -> (fst (fst (sample_cell c u)) <= fst (fst (sample_cell c' u)))%Q) a a'.
Proof.
  intros C N S X B0 F Q D H O P. refine (support_damage extra g st lib snap start w target b0 l b r hits hits' (shipped_sane v lv lib C) N S B0 F _ D H O P).
  pose proof (built_init _ _ _ _ _ _ _ _ _ B0) as Bt. pose proof (follow_built _ _ _ Bt F) as B. apply (shipped_with_support v lv extra b); [|exact B|exact X|exact Q].
  rewrite (follow_library _ _ _ F). unfold rb_init in B0. apply bind_ok in B0 as (pr & _ & B0). injection B0 as <-. exact C.
Qed.
