(** * Rotations of shipped skills can be built (C64) *)

From Coq Require Import ZArith QArith List String Bool Lia.
From Verif Require Import Base BaseFacts Strings Float FloatFacts Types Lookup SpecCond CondFacts Library LibraryFacts Stats
  Events Rotation SpecTimeline SpecGame SpecRun SpecAuto SpecHit RunProps PositionalFacts
  Py PyFacts GameLib GameFacts GameCheck GameCounter SafeCheck ExampleCheck GamePoints GameLoad GameProps SpecRun SpecSafe SafeFacts SafeEq SafeDelay.
Import ListNotations.
Open Scope string_scope.
Open Scope Z_scope.

(** ** The checks *)

Lemma runs_fixed :
  forallb (all_parts 6 run_part_ok) ([death_skill; weakness_skill; brink_skill] ++ wait_skills
    ++ tank_lbs ++ healer_lbs ++ melee_lbs ++ caster_lbs ++ ranged_lbs) = true.
Proof. vm_compute. reflexivity. Qed.
Local Opaque load_job load_class loaded_classes pot_skill.
Lemma point_runs r l js ps :
  point_ok r l = true -> load_jobs r l = Ok js -> mapM (fun nm => pot_skill r l (fst nm) (snd nm)) (pots r) = Ok ps ->
  runs_at js ps = true.
Proof.
  unfold point_ok. destruct (load_jobs r l) as [js'|] eqn:J; [|discriminate].
  destruct (mapM _ (pots r)) as [ps'|] eqn:P; [|discriminate]. intros K [= ->] [= ->]. apply andb_true_iff in K as [K _].
  apply andb_true_iff in K as [K _].
  apply andb_true_iff in K as [_ K]. exact K.
Qed.
Lemma point_examples r l js ps :
  point_ok r l = true -> load_jobs r l = Ok js -> mapM (fun nm => pot_skill r l (fst nm) (snd nm)) (pots r) = Ok ps ->
  examples_at r l js ps = true.
Proof.
  unfold point_ok. destruct (load_jobs r l) as [js'|] eqn:J; [|discriminate].
  destruct (mapM _ (pots r)) as [ps'|] eqn:P; [|discriminate]. intros K [= ->] [= ->]. apply andb_true_iff in K as [K _].
  apply andb_true_iff in K as [_ K]. exact K.
Qed.
Lemma loaded_runs v lv js ps :
  loads v lv -> load_jobs (ver_rank v) (lev_rank lv) = Ok js ->
  mapM (fun nm => pot_skill (ver_rank v) (lev_rank lv) (fst nm) (snd nm)) (pots (ver_rank v)) = Ok ps ->
  runs_at js ps = true.
Proof.
  intros L J P. apply loads_point in L. apply (point_runs (ver_rank v) (lev_rank lv) js ps); [|exact J|exact P].
  pose proof points_ok as K. rewrite forallb_forall in K.
  exact (K _ (supported_points _ _ (ver_rank_range v) L)).
Qed.
Lemma reserved_not_auto n : reserved n = true -> smem n auto_names = false.
Proof.
  intros R. apply not_true_is_false. intros I. apply smem_spec in I. cbn in I. destruct I as [<-|[<-|[]]]; discriminate R.
Qed.
Lemma shipped_runs v lv lib n j s :
  create_skill_library v lv = Ok lib -> get_skill lib n j = Ok s ->
  all_parts 6 run_part_ok s = true /\ auto_ok s = true.
Proof.
  intros C G. assert (L : loads v lv) by (apply loads_iff; eauto).
  destruct (library_point v lv lib C) as (js & ps & -> & J & P & N & N1 & N2 & F).
  pose proof (loaded_runs v lv js ps L J P) as R. unfold runs_at in R. apply andb_true_iff in R as [R1 R2].
  rewrite forallb_forall in R1, R2. pose proof runs_fixed as X. rewrite forallb_forall in X.
  apply point_get in G as (_ & x & I & <- & H); [|exact N1|exact N2]. rewrite <- app_assoc in H. apply in_app_or in H as [H|H].
  - specialize (R1 x I). apply andb_true_iff in R1 as [R1 _]. rewrite forallb_forall in R1. apply andb_true_iff, R1, H.
  - split.
    + unfold generic_list in H. rewrite !in_app_iff in H. destruct H as [[H|[H|H]]|H]; [apply R2, H| | |]; apply X; rewrite !in_app_iff; auto.
      apply lbs_list_in in H. rewrite !in_app_iff in H. tauto.
    + destruct (loaded v lv L) as (js' & ps' & _ & P' & _ & _ & _ & M & _). rewrite P in P'. injection P' as <-.
      apply in_app_or in H. unfold auto_ok. rewrite reserved_not_auto; [reflexivity|].
      exact (proj1 (plain_generic _ _ _ _ s P M H s (part_self s))).
Qed.
Lemma shipped_part v lv lib n j s p :
  create_skill_library v lv = Ok lib -> get_skill lib n j = Ok s -> part_of p s -> run_part_ok p = true.
Proof. intros C G P. exact (all_parts_sound _ p s P 6 (proj1 (shipped_runs v lv lib n j s C G))). Qed.

(** ** Positionals *)

Lemma search_safe t mn bonus init l :
  table_ok t = true -> forallb (fun kv => match snd kv with Some d => negb (Qeq_bool (potency d) 0) | None => false end) t = true ->
  (forall m, In m l -> NoDup (sm_cond m)) ->
  positional_search t mn bonus init l = Err ValueError \/ exists c, positional_search t mn bonus init l = Ok c.
Proof.
  intros T F. rewrite forallb_forall in F. induction l as [|m l IH]; intros N; cbn [positional_search]; [auto|].
  destruct (table_ok_lookup t (sm_cond m) T (N m (or_introl eq_refl))) as (k & v & I & E).
  unfold table_spec. rewrite E. cbn [bind]. specialize (F _ I). cbn [snd] in F. destruct v as [d|]; [|discriminate]. cbn [of_option bind].
  unfold bonus_percent_of. apply negb_true_iff in F. rewrite F. cbn [bind].
  match goal with |- (if ?c then _ else _) = _ \/ _ => destruct c end; [eauto|]. apply IH. intros. apply N. right. assumption.
Qed.
Lemma positional_safe s m : positional_ok s = true -> NoDup (sm_cond m) -> exists m', add_positional s m = Ok m'.
Proof.
  intros P N. unfold add_positional, get_positional_condition, positional_ok in *.
  destruct (positional_table s) as [t|]; [|eauto].
  destruct (existsb (fun kv => smem "No Positional" (fst kv)) t); [|eauto]. cbn [negb orb] in P. apply andb_true_iff in P as [T F].
  destruct (sm_bonus_percent m) as [bonus|]; [|eauto]. destruct (Qeq_bool bonus 0); [eauto|].
  pose proof (removed_nodup (sk_ignored_conditions s) m N) as N'. set (sm := fold_left _ _ m) in *.
  assert (A : forall c, NoDup (sm_cond (add_to_condition sm c))) by (intros c; apply add_to_condition_nodup, N').
  destruct (table_ok_lookup t _ T (A "No Combo, No Positional")) as (k & v & I & E).
  unfold table_spec at 1. rewrite E. cbn [bind]. pose proof F as F'. rewrite forallb_forall in F'. specialize (F' _ I). cbn [snd] in F'.
  destruct v as [d|]; [|discriminate]. cbn [of_option bind].
  edestruct (search_safe t (potency d) bonus (sm_cond m)) as [H|[c H]]; [exact T|exact F| | |].
  2:{ rewrite H. eauto. }
  2:{ rewrite H. eauto. }
  intros x [<-|[<-|[<-|[<-|[]]]]]; auto.
Qed.

(** ** Forced outcomes *)

Lemma forcesb_spec e : forces e -> forcesb e = true.
Proof. unfold forces, forcesb. destruct (se_crit e), (se_dh e); cbn; intuition congruence. Qed.
Lemma force_cases n e : force_ok n e = true -> forces e ->
  exists l, se_allowlist e = Some l
    /\ ((n = "Inner Release" /\ forall x, In x l -> In x forced_skills) \/ (n = "Life Surge" /\ forall x, In x l -> ~ In x forced_skills)).
Proof.
  unfold force_ok. intros H F. rewrite (forcesb_spec e F) in H. cbn [negb orb] in H. destruct (se_allowlist e) as [l|]; [|discriminate].
  exists l. split; [reflexivity|]. rewrite orb_true_iff, !andb_true_iff, !String.eqb_eq, !forallb_forall in H.
  destruct H as [[E H]|[E H]]; [left|right]; (split; [exact E|]); intros x I; specialize (H x I).
  - apply smem_spec, H.
  - intros J. apply smem_spec in J. rewrite J in H. discriminate.
Qed.

(** ** Where the skills of a rotation come from *)

Lemma reach_skills b : reachable b -> forall s, In s (skills_of b) -> exists n j, get_skill (b_library b) n j = Ok s.
Proof.
  induction 1 as [st lib snap autos trailing start w target b H|b t name m job targets b' _ IH H|b name m job n targets b' _ IH H|b on _ IH|b on _ IH|b b' _ IH H];
    unfold skills_of in *; intros s' I.
  - unfold rb_init in H. apply bind_ok in H as (? & _ & H). injection H as <-. destruct I.
  - apply add_fields in H as (s & j & tg & G & -> & _). cbn [b_timed b_sequence b_library] in *. rewrite map_app, app_assoc in I.
    apply in_app_or in I as [I|[<-|[]]]; [apply IH, I|]. exists name, j. exact G.
  - apply add_next_fields in H as (s & j & tg & G & -> & _). cbn [b_timed b_sequence b_library] in *. rewrite map_app in I.
    rewrite !in_app_iff in I. destruct I as [[I|I]|I]; [apply IH, in_or_app; auto| |apply IH, in_or_app; auto].
    apply in_map_iff in I as (x & <- & I). apply repeat_spec in I. subst x. exists name, j. exact G.
  - apply IH, I.
  - apply IH, I.
  - apply timing_fields in H as (E1 & E2 & _ & E4). rewrite E1, E2 in I. rewrite E4. apply IH, I.
Qed.
Lemma auto_from b s : auto_skill b s -> exists n, In n auto_names /\ get_skill (b_library b) n (st_job (b_stats b)) = Ok s.
Proof. intros [[_ G]|[_ G]]; eexists; (split; [|exact G]); cbn; auto. Qed.
Lemma auto_alone v lv lib n j s : create_skill_library v lv = Ok lib -> In n auto_names -> get_skill lib n j = Ok s ->
  sk_name s = n /\ (exists ts, sk_timing s = COne ts) /\ forall p, part_of p s -> p = s.
Proof.
  intros C I G. pose proof (shipped_name _ _ _ _ _ _ C G) as E. split; [exact E|].
  destruct (shipped_runs _ _ _ _ _ _ C G) as [_ A]. unfold auto_ok in A. rewrite E in A. rewrite (proj2 (smem_spec _ _) I) in A. apply andb_true_iff in A as [A _].
  destruct (sk_timing s) as [|ts|]; try discriminate. split; [eauto|]. destruct (follow_ups_of s) eqn:F; [|discriminate].
  intros p P. apply part_inv in P as [P|(fu & J & _)]; [exact P|]. rewrite F in J. destruct J.
Qed.
Lemma auto_simple v lv lib n j s : create_skill_library v lv = Ok lib -> In n auto_names -> get_skill lib n j = Ok s -> auto_plain s = true.
Proof.
  intros C I G. pose proof (shipped_name _ _ _ _ _ _ C G) as E. destruct (shipped_runs _ _ _ _ _ _ C G) as [_ A]. unfold auto_ok in A. rewrite E in A.
  rewrite (proj2 (smem_spec _ _) I) in A. apply andb_true_iff in A as [_ A]. exact A.
Qed.

Section Shipped.
  Variables (v : string) (lv : Z) (b : builder).
  Hypothesis (Re : reachable b) (Sh : shipped_rotation v lv b).
  Let lib := b_library b.
  Let job := st_job (b_stats b).
  Lemma C : create_skill_library v lv = Ok lib.
  Proof. exact (proj1 Sh). Qed.

  Lemma run_from s : run_skill b s -> exists n j, get_skill lib n j = Ok s.
  Proof.
    intros [I|[_ A]]; [exact (reach_skills b Re s I)|]. apply auto_from in A as (n & _ & G). eauto.
  Qed.
  Lemma run_no_queen s p : run_skill b s -> part_of p s -> sk_name p <> "Automaton Queen".
  Proof.
    intros R P. pose proof Sh as Sh'. destruct Sh' as (_ & _ & _ & _ & Q & _). destruct R as [I|[_ A]]; [exact (Q s p I P)|].
    apply auto_from in A as (n & I & G). destruct (auto_alone _ _ _ _ _ _ C I G) as (E & _ & U). rewrite (U p P), E.
    cbn in I. destruct I as [<-|[<-|[]]]; discriminate.
  Qed.
  Lemma job_loaded : exists settings, get_all_resource_settings lib job = Ok settings
    /\ (exists br, get_all_combo_breakers lib job = Ok br).
  Proof.
    pose proof Sh as Sh'. destruct Sh' as (_ & _ & J & _). fold lib job in J. destruct (library_point v lv lib C) as (js & ps & E & _ & _ & _ & N1 & _). rewrite E in *.
    unfold point_lib in J. rewrite get_jobs_lib_of in J. apply in_map_iff in J as (x & <- & I).
    unfold get_all_resource_settings, get_all_combo_breakers, point_lib, lib_of. cbn [lib_resources lib_breakers].
    eexists. split; [|eexists].
    - rewrite (proj2 (dget_jobs (fun x => set_resources (cs_resources (fst x))) js (lj_job x) _ N1) (ex_intro _ x (conj I (conj eq_refl eq_refl)))). reflexivity.
    - match goal with |- context [dget ?j (map (fun x => (lj_job x, @?f x)) js)] =>
        rewrite (proj2 (dget_jobs f js (lj_job x) _ N1) (ex_intro _ x (conj I (conj eq_refl eq_refl)))) end. reflexivity.
  Qed.
  Lemma run_usable settings s : get_all_resource_settings lib job = Ok settings -> run_skill b s -> usable (map fst settings) s.
  Proof.
    intros E R. destruct (run_from s R) as (n & j & G). split.
    - intros m N. destruct (shipped_timed _ _ _ _ _ _ m C G N) as (t & T & _). eauto.
    - intros p P. split.
      + intros m N. destruct (shipped_lookups _ _ _ _ _ _ p m C G P N) as [A B]. split; [exact A|]. apply B.
        intros [_ Q]. exact (run_no_queen s p R P Q).
      + intros c I. assert (X : (exists n', get_skill lib n' job = Ok s) \/ forall p c, part_of p s -> In c (changes_of p) -> jr_clear_all c = true).
        { destruct R as [R|[_ A]]; [apply Sh, R|]. left. apply auto_from in A as (n' & _ & G'). exists n'. exact G'. }
        destruct X as [[n' G']|H]; [|left; exact (H p c P I)].
        destruct (shipped_resources _ _ _ _ _ _ p c C G' P I) as [H|(d & D & H)]; [auto|]. fold job in D. rewrite E in D. injection D as <-. auto.
  Qed.
  Lemma run_forces : never_both_force (run_skill b).
  Proof.
    intros s s' p p' e e' n R R' P P' I I' F F' A A'. destruct (run_from s R) as (m & j & G). destruct (run_from s' R') as (m' & j' & G').
    pose proof (shipped_part _ _ _ _ _ _ p C G P) as K. pose proof (shipped_part _ _ _ _ _ _ p' C G' P') as K'.
    unfold run_part_ok in K, K'. rewrite !andb_true_iff, !forallb_forall in K, K'. destruct K as [[[[K _] _] _] _], K' as [[[[K' _] _] _] _].
    destruct (force_cases _ _ (K e I) F) as (l & El & D). destruct (force_cases _ _ (K' e' I') F') as (l' & El' & D').
    unfold allows in A, A'. rewrite El in A. rewrite El' in A'. destruct D as [[-> D]|[-> D]], D' as [[-> D']|[-> D']]; try reflexivity.
    - elim (D' n A' (D n A)).
    - elim (D n A (D' n A')).
  Qed.
  Lemma run_modifier s m : In s (skills_of b) -> NoDup (sm_cond m) -> usable_modifier s m.
  Proof.
    intros I N. split; [exact N|]. intros m' N' _. destruct (reach_skills b Re s I) as (n & j & G).
    apply positional_safe; [|exact N']. pose proof (shipped_part _ _ _ _ _ _ s C G (part_self s)) as K.
    unfold run_part_ok in K. apply andb_true_iff in K as [_ K]. apply andb_true_iff in K as [K _]. apply andb_true_iff in K as [K _]. exact K.
  Qed.
  Lemma run_equal s : In s (skills_of b) -> skill_eqb s s = true.
  Proof.
    intros I. destruct (reach_skills b Re s I) as (n & j & G). apply (skill_eqb_self 6).
    - destruct (shipped_runs _ _ _ _ _ _ C G) as [A _]. clear - A. revert A. generalize 6%nat. intros k. revert s.
      induction k as [|k IH]; intros s A; [exact A|]. cbn in *. apply andb_true_iff in A as [_ A]. rewrite forallb_forall in *. auto.
    - intros p P. destruct (part_facts _ _ _ _ _ _ p C G P) as (sks & rs & K & _).
      unfold part_ok in K. cbv zeta in K. rewrite !andb_true_iff in K. destruct K as [[[[[[[[[K _] _] _] _] _] _] _] _] _].
      assert (X : except_follow_ups j (sk_name p) = false).
      { unfold except_follow_ups. apply andb_false_iff. right. apply String.eqb_neq. apply (run_no_queen s p); [left; exact I|exact P]. }
      rewrite X in K. exact K.
  Qed.
  Lemma shipped_pressable : pressable b.
  Proof.
    destruct job_loaded as (settings & E & Br). exists settings. split; [exact E|]. split; [exact Br|].
    pose proof Sh as Sh'. destruct Sh' as (_ & (g & Hg) & _ & _ & _ & Ms & Mt & Eq).
    split. { unfold stats_of, make_stats in Hg. apply bind_ok in Hg as (c & Hc & Hg). apply bind_ok in Hg as (? & _ & Hg). apply bind_ok in Hg as (? & _ & Hg).
      apply bind_ok in Hg as (? & _ & Hg). injection Hg as <-. exists c. exact Hc. }
    split. { intros s R. apply run_usable; assumption. }
    split; [exact run_forces|]. split. { intros x I. apply run_modifier; [|apply Ms, I]. apply in_or_app. left. apply in_map, I. }
    split. { intros x I. apply run_modifier; [|apply Mt, I]. apply in_or_app. right. apply in_map, I. }
    intros x y Ix Iy E'. rewrite <- (Eq x y Ix Iy E'). apply run_equal. apply in_or_app. right. apply in_map, Ix.
  Qed.
  Lemma shipped_auto : (job = "VPR" -> ~ between "7.01" v "7.05") -> exists au, auto_skill b au.
  Proof.
    intros B. pose proof C as C'. pose proof Sh as Sh'. destruct Sh' as (_ & _ & J & _). fold lib job in J. assert (L : loads v lv) by (apply loads_iff; eauto).
    destruct (library_point v lv lib C) as (js & ps & El & LJ & P & N & N1 & N2 & F).
    pose proof (loaded_runs v lv js ps L LJ P) as R. unfold runs_at in R. apply andb_true_iff in R as [R _]. rewrite forallb_forall in R.
    rewrite El in J. unfold point_lib in J. rewrite get_jobs_lib_of in J. apply in_map_iff in J as (x & Ej & I).
    specialize (R x I). apply andb_true_iff in R as [_ R]. apply andb_true_iff in R as [R _]. unfold autos_ok in R. destruct (snd x) as [|s0 own] eqn:O.
    { exfalso. apply (facts_empty _ _ _ x F I) in O as [E1 E2]. apply B; [congruence|]. apply rank_6, E2. }
    rewrite <- O in R. apply existsb_exists in R as (s & Is & Hs). apply smem_spec in Hs.
    assert (G : get_skill lib (sk_name s) job = Ok s).
    { rewrite El. apply point_get; [exact N1|exact N2|]. split; [reflexivity|]. exists x. split; [exact I|]. split; [exact Ej|].
      apply in_or_app. left. apply in_or_app. left. exact Is. }
    assert (D : exists d, dget job (lib_skills lib) = Some d).
    { unfold get_skill in G. destruct (dget job (lib_skills lib)) as [d|]; [eauto|discriminate]. }
    destruct D as (d & D). assert (H : forall n, has_skill lib n job = Ok (dmem n d)) by (intros n; unfold has_skill; rewrite D; reflexivity).
    assert (K : forall n, dmem n d = true -> exists s, get_skill lib n job = Ok s).
    { intros n M. unfold get_skill. rewrite D. cbn [of_option bind]. unfold dmem in M. destruct (dget n d) as [s'|]; [exists s'; reflexivity|discriminate]. }
    unfold auto_skill. fold lib job. rewrite H. destruct (dmem "Shot" d) eqn:M.
    - destruct (K _ M) as (s' & G'). exists s'. left. auto.
    - exists s. right. split; [reflexivity|]. cbn in Hs. destruct Hs as [Hs|[Hs|[]]]; [|rewrite Hs; exact G].
      exfalso. rewrite <- Hs in G. unfold get_skill in G. rewrite D in G. cbn [of_option bind] in G. unfold dmem in M.
      destruct (dget "Shot" d); [discriminate M|discriminate G].
  Qed.
  Lemma shipped_autos_possible : shipped_autos v b -> autos_possible b.
  Proof.
    intros (Hit & W & En & B). split; [exact Hit|]. destruct (shipped_auto B) as (au & A). split; [|split; [exact En|]].
    - exists au. destruct (auto_from b au A) as (n & I & G). destruct (auto_alone _ _ _ _ _ _ C I G) as (_ & (ts & T) & _). exists ts. auto.
    - intros au' evs t buffs debuffs _ Ev Ef. pose proof Sh as Sh'. destruct Sh' as (_ & (g & Hg) & _).
      destruct (auto_effects_bound b evs t au' buffs debuffs Ef) as [X Y].
      { intros e I. destruct (Ev e I) as (_ & s & R & P). destruct (run_from s R) as (n & j & G).
        pose proof (shipped_part _ _ _ _ _ _ _ C G P) as K. unfold run_part_ok in K. rewrite !andb_true_iff, !forallb_forall in K.
        destruct K as [[[[_ K1] K2] _] _]. split; [exact K1|]. intros x J. apply Qeq_bool_iff, K2, J. }
      apply delay_enough; [exact W|exact (trait_small _ _ Hg)|exact X|exact Y].
  Qed.
  Lemma shipped_timing_safe : (b_autos b = true -> shipped_autos v b) -> exists b', get_skill_timing b = Ok b'.
  Proof. intros A. apply timing_safe; [exact Re|exact shipped_pressable|]. intros E. apply shipped_autos_possible, A, E. Qed.
End Shipped.
