(** * The simulator: rows, capacity (C37-C39, C41) *)

From Coq Require Import ZArith QArith Qround Qabs List String Bool Lia Lqa Permutation Sorted.
From Verif Require Import Base BaseFacts Float FloatFacts Strings Types Lookup StatusEffect Stats Events DamageBuild Damage SpecHit HitFacts HitOutcomes.
Import ListNotations.
Open Scope string_scope.
Open Scope Z_scope.
Local Opaque fl dec.

(** ** Rows *)

Lemma dt_add_ok tr r tr' : dt_add tr r = Ok tr' ->
  dt_finalized tr = false /\ tr' = mkTracker (dt_rows tr ++ [r])%list false /\ Z.of_nat (List.length (dt_rows tr)) < 5000.
Proof.
  unfold dt_add, CAPACITY. destruct (dt_finalized tr); [discriminate|]. destruct (5000 <=? _) eqn:L; [discriminate|].
  intros [= <-]. apply Z.leb_gt in L. auto.
Qed.
Lemma compile_rows st l : forall tr tr', foldM (compile_instance st) l tr = Ok tr' ->
  exists rs, dt_rows tr' = (dt_rows tr ++ rs)%list /\ Forall2 (fun x r => row_of st x = Ok r) l rs.
Proof.
  induction l as [|x l IH]; intros tr tr' H.
  - injection H as <-. exists []. rewrite app_nil_r. auto.
  - cbn in H. apply bind_ok in H as (tr1 & E & H). unfold compile_instance in E. apply bind_ok in E as (r & Er & E).
    apply dt_add_ok in E as (_ & -> & _). apply IH in H as (rs & E & F). cbn in E. exists (r :: rs).
    rewrite <- app_assoc in E. cbn in E. split; [exact E|]. constructor; assumption.
Qed.
Lemma sim_rows st l sim : ds_init st l = Ok sim ->
  ds_instances sim = sort_by di_time l /\ ds_stats sim = st /\ dt_finalized (ds_tracker sim) = true
  /\ Forall2 (fun x r => row_of st x = Ok r) (ds_instances sim) (dt_rows (ds_tracker sim)).
Proof.
  unfold ds_init. intros H. apply bind_ok in H as (tr & E & H). injection H as <-. cbn.
  apply compile_rows in E as (rs & -> & F). auto.
Qed.

Lemma F2_length {A B} (R : A -> B -> Prop) l l' : Forall2 R l l' -> List.length l = List.length l'.
Proof. induction 1; cbn; congruence. Qed.
Lemma mapi_length {A B} (f : nat -> A -> B) l : forall i, List.length (mapi_from f i l) = List.length l.
Proof. induction l as [|a l IH]; intros i; cbn; [reflexivity|]. f_equal. apply IH. Qed.
Lemma mapi_nth {A B} (f : nat -> A -> B) l : forall i k,
  nth_error (mapi_from f i l) k = match nth_error l k with Some a => Some (f (i + k)%nat a) | None => None end.
Proof.
  induction l as [|a l IH]; intros i [|k]; cbn; try reflexivity.
  - rewrite Nat.add_0_r. reflexivity.
  - rewrite IH, <- Nat.add_succ_comm. reflexivity.
Qed.

Lemma ranges_at tr u rs : damage_ranges tr u = Ok rs ->
  List.length rs = List.length (dt_rows tr)
  /\ forall i r, nth_error (dt_rows tr) i = Some r -> nth_error rs i = Some (row_outcomes r (u i)).
Proof.
  unfold damage_ranges. destruct (dt_finalized tr); [|discriminate]. intros [= <-]. split; [apply mapi_length|].
  intros i r E. rewrite mapi_nth, E. reflexivity.
Qed.
Lemma cells_at tr n u m : compute_damage tr n u = Ok m ->
  List.length m = List.length (dt_rows tr)
  /\ forall i r, nth_error (dt_rows tr) i = Some r -> nth_error m i = Some (map (fun j => sample_cell r (u i j)) (seq 0 n)).
Proof.
  unfold compute_damage. destruct (dt_finalized tr); [|discriminate]. intros [= <-]. split; [apply mapi_length|].
  intros i r E. rewrite mapi_nth, E. reflexivity.
Qed.
Lemma nth_some_lt {A} (l : list A) i a : nth_error l i = Some a -> (i < List.length l)%nat.
Proof. intros H. apply nth_error_Some. congruence. Qed.
Lemma nth_of_lt {A} (l : list A) i : (i < List.length l)%nat -> exists a, nth_error l i = Some a.
Proof. intros H. apply nth_error_Some in H. destruct (nth_error l i); [eauto|congruence]. Qed.

(** ** What makes a row *)

Lemma row_of_ok st x r : row_of st x = Ok r ->
  exists d b, get_damage_spec (di_skill x) (di_modifier x) = Ok (Some d)
    /\ get_base_damage (di_skill x) (di_modifier x) st (di_effects x) = Ok (Some b)
    /\ crit_rates_and_bonuses st d (di_modifier x) (di_effects x) = Ok (r_dh_rate r, r_crit_rate r, r_crit_bonus r)
    /\ r_base r = b /\ r_mult r = compute_damage_mult (di_effects x)
    /\ r_trait r = match trait_damage_mult_override d with Some t => t | None => ps_trait_damage_mult st end.
Proof.
  unfold row_of. intros H. apply bind_ok in H as (b & Eb & H). apply bind_ok in H as (b' & Eb' & H).
  destruct b as [b|]; [|discriminate]. injection Eb' as <-.
  apply bind_ok in H as (sp & Es & H). apply bind_ok in H as (d & Ed & H). destruct sp as [d'|]; [|discriminate]. injection Ed as <-.
  apply bind_ok in H as ([[dh crit] bonus] & Er & H). injection H as <-. exists d', b. cbn. repeat split; auto.
Qed.
Lemma base_nonneg s m st e b : get_base_damage s m st e = Ok (Some b) -> (0 <= b)%Q.
Proof. intros H. apply base_damage_cases in H as (d & _ & [[_ H]|[_ H]]); lra. Qed.
Lemma trait_nonneg v j : (0 <= trait_damage_mult_of v j)%Q.
Proof.
  unfold trait_damage_mult_of. repeat match goal with |- context [if ?b then _ else _] => destruct b end;
    first [lra|apply dec_nonneg; lia].
Qed.
Lemma stats_of_processed g st : stats_of g = Ok st ->
  exists c, get_consts (st_version st) (st_level st) = Ok c /\ ps_crit_bonus st = crit_bonus_of c (g_crit g)
    /\ ps_trait_damage_mult st = trait_damage_mult_of (st_version st) (st_job st).
Proof.
  unfold stats_of, make_stats. intros H. apply bind_ok in H as (c & Ec & H). apply bind_ok in H as (jm & Ej & H).
  apply bind_ok in H as (red & Er & H). apply bind_ok in H as (w & Ew & H). injection H as <-. exists c. cbn. auto.
Qed.
Lemma rows_nonneg g st x r : stats_of g = Ok st -> (0 <= g_crit g)%Q -> mults_nonneg x -> row_of st x = Ok r -> row_nonneg r.
Proof.
  intros G C (M1 & M2 & T) H. apply row_of_ok in H as (d & b & Ed & Eb & Er & E0 & EM & ET).
  apply rates_ok in Er as (_ & _ & EB). destruct (stats_of_processed g st G) as (c & Ec & E1 & E2).
  split; [rewrite E0; apply (base_nonneg _ _ _ _ _ Eb)|]. split; [rewrite EB, E1; apply crit_bonus_nonneg; [apply (get_consts_const _ _ _ Ec)|exact C]|].
  split; [|rewrite EM; apply fmul_nonneg; assumption]. rewrite ET. specialize (T d Ed).
  destruct (trait_damage_mult_override d); [exact T|]. rewrite E2. apply trait_nonneg.
Qed.

Lemma with_tnc_ok c st b : (st_is_tank st = true -> st_tenacity st <> None) -> exists x, with_tnc c st b = Ok x.
Proof.
  intros T. unfold with_tnc, tnc_of. destruct (st_is_tank st); [|eauto]. specialize (T eq_refl). destruct (st_tenacity st); [cbn; eauto|congruence].
Qed.
Lemma dot_tnc_ok c st b : (st_is_tank st = true -> st_tenacity st <> None) -> exists x, dot_tnc c st b = Ok x.
Proof.
  intros T. unfold dot_tnc, tnc_of. destruct (st_is_tank st); [|eauto]. specialize (T eq_refl). destruct (st_tenacity st); [cbn; eauto|congruence].
Qed.
Lemma class_total c d m st e : damage_class d <> DC_UNKNOWN -> (st_is_tank st = true -> st_tenacity st <> None) ->
  (uses_strength st = true -> damage_class d = DC_AUTO -> st_healer_strength st <> None) -> exists x, class_damage c d m st e = Ok x.
Proof.
  intros K T A. unfold class_damage. destruct (damage_class d).
  - congruence.
  - unfold direct_damage. destruct (uses_strength st); [cbn; eauto|].
    edestruct (with_tnc_ok c st (ap_det (potency d) (fAP c (party_main_stat st e) (st_is_tank st)) (det_dh_of c st d m e)) T) as (x & ->). cbn. eauto.
  - unfold magical_dot_damage. match goal with |- context [dot_tnc c st ?b] => destruct (dot_tnc_ok c st b T) as (x & ->) end. cbn. eauto.
  - unfold physical_dot_damage. match goal with |- context [dot_tnc c st ?b] => destruct (dot_tnc_ok c st b T) as (x & ->) end. cbn. eauto.
  - unfold auto_damage. destruct (uses_strength st).
    + specialize (A eq_refl eq_refl). destruct (st_healer_strength st); [|congruence]. cbn [of_option bind].
      match goal with |- context [with_tnc c st ?b] => destruct (with_tnc_ok c st b T) as (x & ->) end. cbn. eauto.
    + cbn [bind]. match goal with |- context [with_tnc c st ?b] => destruct (with_tnc_ok c st b T) as (x & ->) end. cbn. eauto.
  - unfold pet_damage. match goal with |- context [with_tnc c st ?b] => destruct (with_tnc_ok c st b T) as (x & ->) end. cbn. eauto.
Qed.
Lemma row_total g st x : stats_of g = Ok st -> computable st x -> exists r, row_of st x = Ok r.
Proof.
  intros G (d & Ed & K & T & A & C1 & C2). destruct (stats_of_processed g st G) as (c & Ec & _).
  assert (B : exists b, get_base_damage (di_skill x) (di_modifier x) st (di_effects x) = Ok (Some b)).
  { unfold get_base_damage. rewrite Ed. cbn [bind]. destruct (Qeq_bool (potency d) 0); [eauto|]. rewrite Ec. cbn [bind].
    destruct (class_total c d (di_modifier x) st (di_effects x) K T A) as (y & ->). cbn. eauto. }
  destruct B as (b & Eb). unfold row_of. rewrite Eb. cbn [bind of_option]. rewrite Ed. cbn [bind of_option].
  destruct (crit_rates_and_bonuses st d (di_modifier x) (di_effects x)) as [[[dh crit] bonus]|er] eqn:Er; [cbn; eauto|].
  apply rates_err in Er as (_ & [?|?]); tauto.
Qed.

(** ** Capacity *)

Lemma compile_fits st l : (forall x, In x l -> exists r, row_of st x = Ok r) ->
  forall tr, dt_finalized tr = false -> Z.of_nat (List.length (dt_rows tr) + List.length l) <= 5000 ->
  exists tr', foldM (compile_instance st) l tr = Ok tr'.
Proof.
  induction l as [|x l IH]; intros H tr F L; [cbn; eauto|]. cbn. unfold compile_instance at 1.
  destruct (H x (or_introl eq_refl)) as (r & ->). cbn [bind]. unfold dt_add, CAPACITY. rewrite F.
  cbn in L. destruct (5000 <=? Z.of_nat (List.length (dt_rows tr))) eqn:B; [apply Z.leb_le in B; lia|]. cbn [bind].
  apply IH; [intros y Hy; apply H; right; exact Hy|reflexivity|]. cbn. rewrite app_length. cbn. lia.
Qed.
Lemma compile_overflows st l : (forall x, In x l -> exists r, row_of st x = Ok r) ->
  forall tr, dt_finalized tr = false -> 5000 < Z.of_nat (List.length (dt_rows tr) + List.length l) ->
  Z.of_nat (List.length (dt_rows tr)) <= 5000 -> foldM (compile_instance st) l tr = Err IndexError.
Proof.
  induction l as [|x l IH]; intros H tr F L M; [cbn in L; lia|]. cbn. unfold compile_instance at 1.
  destruct (H x (or_introl eq_refl)) as (r & ->). cbn [bind]. unfold dt_add, CAPACITY. rewrite F.
  cbn in L. destruct (5000 <=? Z.of_nat (List.length (dt_rows tr))) eqn:B; [reflexivity|]. apply Z.leb_gt in B. cbn [bind].
  apply IH; [intros y Hy; apply H; right; exact Hy|reflexivity| |]; cbn; rewrite app_length; cbn; lia.
Qed.
Lemma sort_in {A} key (l : list A) x : In x (sort_by key l) -> In x l.
Proof. apply Permutation_in, sort_by_perm. Qed.
Lemma sort_length {A} key (l : list A) : List.length (sort_by key l) = List.length l.
Proof. apply Permutation_length, sort_by_perm. Qed.

Lemma init_fits g st l : stats_of g = Ok st -> Forall (computable st) l -> Z.of_nat (List.length l) <= 5000 ->
  exists sim, ds_init st l = Ok sim.
Proof.
  intros G C L. rewrite Forall_forall in C. unfold ds_init.
  destruct (compile_fits st (sort_by di_time l)) with (tr := dt_init) as (tr & ->); [|reflexivity|cbn; rewrite sort_length; exact L|cbn; eauto].
  intros x I. apply (row_total g st x G), C, (sort_in _ _ _ I).
Qed.
Lemma init_overflows g st l : stats_of g = Ok st -> Forall (computable st) l -> 5000 < Z.of_nat (List.length l) ->
  ds_init st l = Err IndexError.
Proof.
  intros G C L. rewrite Forall_forall in C. unfold ds_init.
  rewrite (compile_overflows st (sort_by di_time l)); [reflexivity| |reflexivity|cbn; rewrite sort_length; exact L|cbn; lia].
  intros x I. apply (row_total g st x G), C, (sort_in _ _ _ I).
Qed.
Lemma run_total st l sim n u v : ds_init st l = Ok sim -> l <> [] ->
  exists rp, run_simulator sim n u v = Ok rp /\ List.length (rp_expected rp) = List.length l /\ List.length (rp_variance rp) = List.length l
    /\ List.length (rp_damage rp) = n /\ List.length (rp_dps rp) = n.
Proof.
  intros H NE. destruct (sim_rows st l sim H) as (E & _ & F & R). apply F2_length in R.
  unfold run_simulator, expected_and_variance, damage_ranges, compute_damage. rewrite F. cbn [bind].
  rewrite E, sort_length in R. destruct (dt_rows (ds_tracker sim)) as [|r rows] eqn:ER.
  { destruct l; [congruence|]. discriminate. }
  cbn [mapi_from bind]. eexists. split; [reflexivity|]. cbn [rp_expected rp_variance rp_damage rp_dps map List.length].
  rewrite !map_length, !mapi_length. unfold sampled_dps, sampled_damage. rewrite !map_length, seq_length.
  cbn in R. repeat split; auto.
Qed.
Lemma run_empty st sim n u v : ds_init st [] = Ok sim -> run_simulator sim n u v = Err ValueError.
Proof. intros [= <-]. reflexivity. Qed.

(** ** Outcomes of every instance *)

Lemma sim_row_at st l sim i x : ds_init st l = Ok sim -> nth_error (ds_instances sim) i = Some x ->
  exists r, nth_error (dt_rows (ds_tracker sim)) i = Some r /\ row_of st x = Ok r.
Proof.
  intros H E. destruct (sim_rows st l sim H) as (_ & _ & _ & R). revert i E. induction R as [|a r la lr Ra R IH]; intros [|i] E; try discriminate.
  - injection E as <-. exists r. split; [reflexivity|exact Ra].
  - apply (IH i E).
Qed.
