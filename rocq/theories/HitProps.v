(** * Damage numbers of whole simulations, and examples *)

From Coq Require Import ZArith QArith Qround Qabs List String Bool Lia Lqa Permutation Sorted.
From Verif Require Import Base BaseFacts Float FloatFacts Strings Types Lookup StatusEffect Stats Library Events Rotation DamageBuild Damage KillTime
  SpecHit SpecKill HitFacts HitOutcomes SimFacts KillFacts Fixtures RunCounter.
Import ListNotations.
Open Scope string_scope.
Open Scope Z_scope.

(** ** Examples *)

Definition gx (main : Z) : gear :=
  mkGear (inject_Z 132) None (inject_Z main) (inject_Z 2182) (inject_Z 940) (inject_Z 2576) (inject_Z 400) "WAR" "7.0" (Some (inject_Z 529))
    5 None 100.
Definition gx_stats (g : gear) : stats := match stats_of g with Ok st => st | Err _ => fx_stats end.
Definition gx_inst (t : Z) (s : skill) : instance := mkInst t s default_modifier (no_effects, no_effects) 7 DEFAULT_TARGET.
Definition gx_hits : list instance := [gx_inst 500 fx_hit; gx_inst 3000 fx_ogcd].
(** Draws of one half. *)
Definition half_draws (_ _ : nat) : draws := ((1 # 2), (1 # 2), (1 # 2))%Q.
Definition zero_draws (_ _ : nat) : draws := ((1 # 2), 0, (1 # 2))%Q.
Definition gx_sim : simulator :=
  match ds_init (gx_stats (gx 3330)) gx_hits with Ok s => s | Err _ => mkSimulator [] dt_init fx_stats end.
Definition gx_rows : list row := dt_rows (ds_tracker gx_sim).
Definition forced_effects (c : forced) : status_effects :=
  mkEffects (dec 10 100) 0 1 0 1 1 1 (Fin 0) 0 c F_DEFAULT [].

(** ** C34 *)
Lemma base_damage_none s m st e : get_base_damage s m st e = Ok None <-> get_damage_spec s m = Ok None.
Proof.
  split; intros H; [apply base_damage_cases in H; exact H|]. unfold get_base_damage. rewrite H. reflexivity.
Qed.
Lemma base_damage_some s m st e d b : get_damage_spec s m = Ok (Some d) -> get_base_damage s m st e = Ok (Some b) ->
  (b == 0 <-> potency d == 0)%Q /\ (~ potency d == 0 -> 1 <= b)%Q.
Proof.
  intros Hd H. apply base_damage_cases in H as (d' & Hd' & H). rewrite Hd in Hd'. injection Hd' as <-.
  destruct H as [[P B]|[P B]].
  - split; [tauto|]. intros N. destruct (N P).
  - split; [|auto]. split; [intros Z; lra|tauto].
Qed.
Lemma base_damage_total g st s m e d : stats_of g = Ok st -> get_damage_spec s m = Ok (Some d) -> damage_class d <> DC_UNKNOWN ->
  (st_is_tank st = true -> st_tenacity st <> None) -> (uses_strength st = true -> damage_class d = DC_AUTO -> st_healer_strength st <> None) ->
  exists b, get_base_damage s m st e = Ok (Some b).
Proof.
  intros G Ed K T A. destruct (stats_of_processed g st G) as (c & Ec & _).
  unfold get_base_damage. rewrite Ed. cbn [bind]. destruct (Qeq_bool (potency d) 0); [eauto|]. rewrite Ec. cbn [bind].
  destruct (class_total c d m st e K T A) as (y & ->). cbn. eauto.
Qed.

(** ** C37-C39 *)
Lemma row_at st l sim i x r : ds_init st l = Ok sim -> nth_error (ds_instances sim) i = Some x ->
  nth_error (dt_rows (ds_tracker sim)) i = Some r -> row_of st x = Ok r.
Proof. intros H E E'. destruct (sim_row_at st l sim i x H E) as (r' & E1 & E2). rewrite E' in E1. injection E1 as <-. exact E2. Qed.
Lemma outcomes_at st l sim u rs i x os : ds_init st l = Ok sim -> damage_ranges (ds_tracker sim) u = Ok rs ->
  nth_error (ds_instances sim) i = Some x -> nth_error rs i = Some os ->
  exists r, row_of st x = Ok r /\ os = row_outcomes r (u i).
Proof.
  intros H R E Eo. destruct (sim_row_at st l sim i x H E) as (r & Er & Hr). destruct (ranges_at _ _ _ R) as (_ & A).
  rewrite (A i r Er) in Eo. injection Eo as <-. exists r. auto.
Qed.
Lemma distribution st l sim u rs i x os : ds_init st l = Ok sim -> damage_ranges (ds_tracker sim) u = Ok rs ->
  nth_error (ds_instances sim) i = Some x -> nth_error rs i = Some os ->
  exists d dh crit, get_damage_spec (di_skill x) (di_modifier x) = Ok (Some d)
    /\ crit_rates_and_bonuses st d (di_modifier x) (di_effects x) = Ok (dh, crit, ps_crit_bonus st)
    /\ map o_label os = ["No crit, no DH"; "Crit, no DH"; "No crit, DH"; "Crit, DH"]
    /\ (Qabs (total_prob os - 1) <= pow2 (-51) * ((Qabs crit + Qabs (1 - crit)) * (Qabs dh + Qabs (1 - dh))))%Q
    /\ (in_unit crit -> in_unit dh ->
        (Qabs (total_prob os - 1) <= pow2 (-51))%Q /\ forall o, In o os -> in_unit (o_prob o))
    /\ (~ (in_unit crit /\ in_unit dh) -> exists o, In o os /\ (o_prob o < 0)%Q).
Proof.
  intros H R E Eo. destruct (outcomes_at _ _ _ _ _ _ _ _ H R E Eo) as (r & Hr & ->).
  destruct (row_of_ok _ _ _ Hr) as (d & b & Ed & _ & Er & _). exists d, (r_dh_rate r), (r_crit_rate r).
  assert (EB : r_crit_bonus r = ps_crit_bonus st) by (apply rates_ok in Er; apply Er). rewrite EB in Er.
  split; [exact Ed|]. split; [exact Er|]. split; [reflexivity|]. split; [apply probs_sum|].
  split; [|apply probs_negative]. intros C D. split; [apply probs_sum_unit; assumption|]. intros o I. apply (probs_unit r (u i) o C D I).
Qed.

Lemma sample_in_range g st l sim u v rs n m i x os cells j d crit dh :
  stats_of g = Ok st -> (0 <= g_crit g)%Q -> Forall mults_nonneg l -> fair u -> (forall i j, drawn (v i j)) ->
  ds_init st l = Ok sim -> damage_ranges (ds_tracker sim) u = Ok rs -> compute_damage (ds_tracker sim) n v = Ok m ->
  nth_error (ds_instances sim) i = Some x -> nth_error rs i = Some os -> nth_error m i = Some cells -> nth_error cells j = Some (d, crit, dh) ->
  (exists o, In o os /\ o_label o = label_of crit dh)
  /\ forall o, In o os -> o_label o = label_of crit dh -> (o_low o <= d <= o_high o)%Q.
Proof.
  intros G C M F V H R K E Eo Ec Ej. destruct (sim_row_at st l sim i x H E) as (r & Er & Hr).
  destruct (ranges_at _ _ _ R) as (_ & A). rewrite (A i r Er) in Eo. injection Eo as <-.
  destruct (cells_at _ _ _ _ K) as (_ & B). rewrite (B i r Er) in Ec. injection Ec as <-.
  assert (N : row_nonneg r).
  { apply (rows_nonneg g st x r G C); [|exact Hr]. rewrite Forall_forall in M. apply M. destruct (sim_rows _ _ _ H) as (Es & _).
    rewrite Es in E. apply nth_error_In in E. apply (sort_in _ _ _ E). }
  split; [apply label_listed|]. rewrite nth_error_map in Ej. destruct (nth_error (seq 0 n) j) as [k|]; [|discriminate]. injection Ej as Ej.
  apply (sampled_in_range r (u i) (v i k) d crit dh N); [intros; apply F|apply V|exact Ej].
Qed.

Lemma sample_drawn st l sim v n m i x cells j d crit dh :
  ds_init st l = Ok sim -> compute_damage (ds_tracker sim) n v = Ok m ->
  nth_error (ds_instances sim) i = Some x -> nth_error m i = Some cells -> nth_error cells j = Some (d, crit, dh) ->
  exists sp c h, get_damage_spec (di_skill x) (di_modifier x) = Ok (Some sp)
    /\ crit_rates_and_bonuses st sp (di_modifier x) (di_effects x) = Ok (h, c, ps_crit_bonus st)
    /\ (crit = true <-> (snd (fst (v i j)) <= c)%Q) /\ (dh = true <-> (snd (v i j) <= h)%Q).
Proof.
  intros H K E Ec Ej. destruct (sim_row_at st l sim i x H E) as (r & Er & Hr).
  destruct (cells_at _ _ _ _ K) as (_ & B). rewrite (B i r Er) in Ec. injection Ec as <-.
  destruct (row_of_ok _ _ _ Hr) as (sp & b & Ed & _ & Es & _). exists sp, (r_crit_rate r), (r_dh_rate r).
  assert (EB : r_crit_bonus r = ps_crit_bonus st) by (apply rates_ok in Es; apply Es). rewrite EB in Es.
  split; [exact Ed|]. split; [exact Es|]. rewrite nth_error_map in Ej.
  destruct (nth_error (seq 0 n) j) as [k|] eqn:S; [|discriminate]. assert (k = j) as ->.
  { assert (L : (j < List.length (seq 0 n))%nat) by (apply nth_error_Some; congruence). rewrite seq_length in L.
    rewrite (nth_error_nth' _ 0%nat) in S by (rewrite seq_length; exact L). rewrite seq_nth in S by exact L. injection S as <-. reflexivity. }
  injection Ej as Ej. unfold sample_cell, get_damage in Ej. destruct (v i j) as [[u0 u1] u2]. injection Ej as _ <- <-. cbn [fst snd].
  split; apply Qle_bool_iff.
Qed.

Lemma expected_at sim u ex va : expected_and_variance sim u = Ok (ex, va) ->
  exists rs, damage_ranges (ds_tracker sim) u = Ok rs /\ ex = map expected_of rs /\ va = map variance_of rs.
Proof.
  unfold expected_and_variance. intros H. apply bind_ok in H as (rs & E & H). exists rs. destruct rs; [discriminate|].
  injection H as <- <-. auto.
Qed.
Lemma expected_in_range g st l sim u ex va i x r xe xv :
  stats_of g = Ok st -> (0 <= g_crit g)%Q -> Forall mults_nonneg l -> fair u ->
  ds_init st l = Ok sim -> expected_and_variance sim u = Ok (ex, va) ->
  nth_error (ds_instances sim) i = Some x -> nth_error (dt_rows (ds_tracker sim)) i = Some r ->
  in_unit (r_crit_rate r) -> in_unit (r_dh_rate r) ->
  nth_error ex i = Some xe -> nth_error va i = Some xv ->
  exists rs os, damage_ranges (ds_tracker sim) u = Ok rs /\ nth_error rs i = Some os
    /\ (forall lo hi, (forall o, In o os -> 0 <= lo <= o_low o /\ o_high o <= hi)%Q ->
        (lo * (1 - pow2 (-51)) <= xe <= hi * (1 + pow2 (-51)))%Q)
    /\ (- pow2 (-51) * (xe * xe) <= xv)%Q.
Proof.
  intros G C M F H X E Er U1 U2 Ee Ev. destruct (expected_at _ _ _ _ X) as (rs & R & -> & ->).
  pose proof (row_at _ _ _ _ _ _ H E Er) as Hr. destruct (ranges_at _ _ _ R) as (_ & A). specialize (A i r Er).
  exists rs, (row_outcomes r (u i)). split; [exact R|]. split; [exact A|].
  rewrite nth_error_map, A in Ee. rewrite nth_error_map, A in Ev. injection Ee as <-. injection Ev as <-.
  assert (N : row_nonneg r).
  { apply (rows_nonneg g st x r G C); [|exact Hr]. rewrite Forall_forall in M. apply M. destruct (sim_rows _ _ _ H) as (Es & _).
    rewrite Es in E. apply nth_error_In in E. apply (sort_in _ _ _ E). }
  split; [|apply variance_within; assumption]. intros lo hi L. apply expected_within; try assumption. intros k _. apply F.
Qed.

Lemma prob_each r u o is_crit is_dh : In o (row_outcomes r u) -> o_label o = label_of is_crit is_dh ->
  let p := ((if is_crit then r_crit_rate r else 1 - r_crit_rate r) * (if is_dh then r_dh_rate r else 1 - r_dh_rate r))%Q in
  (Qabs (o_prob o - p) <= pow2 (-51) * Qabs p)%Q.
Proof.
  set (c := r_crit_rate r). set (d := r_dh_rate r). intros I E. cbv zeta. rewrite <- pow2_51, Qabs_Qmult.
  pose proof (qabs_fl_err (1 - c)) as EC. pose proof (qabs_fl_err (1 - d)) as ED.
  unfold row_outcomes in I. cbn [In] in I. fold c d in I.
  destruct I as [<-|[<-|[<-|[<-|[]]]]]; cbn [o_label o_prob] in *; destruct is_crit, is_dh; try discriminate E.
  - exact (prod_err _ _ _ _ EC ED).
  - exact (prod_err _ _ _ _ (self_err c) ED).
  - exact (prod_err _ _ _ _ EC (self_err d)).
  - exact (prod_err _ _ _ _ (self_err c) (self_err d)).
Qed.
Lemma each_probability st l sim u rs i x os : ds_init st l = Ok sim -> damage_ranges (ds_tracker sim) u = Ok rs ->
  nth_error (ds_instances sim) i = Some x -> nth_error rs i = Some os ->
  exists d dh crit, get_damage_spec (di_skill x) (di_modifier x) = Ok (Some d)
    /\ crit_rates_and_bonuses st d (di_modifier x) (di_effects x) = Ok (dh, crit, ps_crit_bonus st)
    /\ forall o is_crit is_dh, In o os -> o_label o = label_of is_crit is_dh ->
       let p := ((if is_crit then crit else 1 - crit) * (if is_dh then dh else 1 - dh))%Q in
       (Qabs (o_prob o - p) <= pow2 (-51) * Qabs p)%Q.
Proof.
  intros H R E Eo. destruct (outcomes_at _ _ _ _ _ _ _ _ H R E Eo) as (r & Hr & ->).
  destruct (row_of_ok _ _ _ Hr) as (d & b & Ed & _ & Er & _). exists d, (r_dh_rate r), (r_crit_rate r).
  assert (EB : r_crit_bonus r = ps_crit_bonus st) by (apply rates_ok in Er; apply Er). rewrite EB in Er.
  split; [exact Ed|]. split; [exact Er|]. intros o a c I L. exact (prob_each r (u i) o a c I L).
Qed.
Lemma moments sim u ex va i os xe xv rs : expected_and_variance sim u = Ok (ex, va) -> damage_ranges (ds_tracker sim) u = Ok rs ->
  nth_error rs i = Some os -> nth_error ex i = Some xe -> nth_error va i = Some xv ->
  let mean o := ((o_low o + o_high o) * (1 # 2))%Q in let width o := (o_high o - o_low o)%Q in
  (xe == sum_over (fun o => o_prob o * mean o) os)%Q
  /\ (xv == sum_over (fun o => o_prob o * (mean o * mean o + width o * width o * (1 # 12))) os - xe * xe)%Q.
Proof.
  intros X R Eo Ee Ev mean width. destruct (expected_at _ _ _ _ X) as (rs' & R' & -> & ->). rewrite R in R'. injection R' as <-.
  rewrite nth_error_map, Eo in Ee, Ev. injection Ee as <-. injection Ev as <-.
  assert (E1 : (expected_of os == sum_over (fun o => o_prob o * mean o) os)%Q).
  { unfold expected_of. induction os as [|o os IH]; [reflexivity|]. cbn [map qsum fold_right sum_over]. fold (qsum (map (fun o => o_prob o * o_mean o)%Q os)).
    unfold o_mean at 1. rewrite half. change (o_low o + o_high o)%Q with (o_low o + o_high o)%Q. unfold mean at 1.
    apply Qplus_comp; [reflexivity|]. clear -os. induction os as [|o' os IH]; [reflexivity|]. cbn [map qsum fold_right sum_over].
    unfold o_mean at 1. rewrite half. apply Qplus_comp; [reflexivity|exact IH]. }
  split; [exact E1|]. unfold variance_of. rewrite twelfth.
  assert (E2 : (qsum (map (fun o => o_prob o * (o_diff o * o_diff o)) os) * (1 # 12) + qsum (map (fun o => o_prob o * (o_mean o * o_mean o)) os)
    == sum_over (fun o => o_prob o * (mean o * mean o + width o * width o * (1 # 12))) os)%Q).
  { clear -os. induction os as [|o os IH]; [reflexivity|]. cbn [map qsum fold_right sum_over]. unfold qsum in IH. rewrite <- IH.
    assert (M : (o_mean o == mean o)%Q) by (unfold o_mean, mean; apply half). unfold o_diff at 1 2. rewrite M. unfold width. ring. }
  rewrite <- E2. ring.
Qed.

(** ** C41 *)
Lemma fits g st l : stats_of g = Ok st -> Forall (computable st) l -> l <> [] -> Z.of_nat (List.length l) <= 5000 ->
  exists sim, ds_init st l = Ok sim /\ forall n u v, exists rp, run_simulator sim n u v = Ok rp
    /\ List.length (rp_expected rp) = List.length l /\ List.length (rp_variance rp) = List.length l
    /\ List.length (rp_damage rp) = n /\ List.length (rp_dps rp) = n.
Proof.
  intros G C NE L. destruct (init_fits g st l G C L) as (sim & E). exists sim. split; [exact E|]. intros n u v.
  apply (run_total st l sim n u v E NE).
Qed.
Lemma gx_computable t : computable (gx_stats (gx 3330)) (gx_inst t fx_hit).
Proof.
  exists (fx_damage 500). split; [reflexivity|]. split; [discriminate|]. split; [intros _; vm_compute; discriminate|].
  split; [intros _; discriminate|]. split; intros [I _]; cbn in I; intuition discriminate.
Qed.
Lemma gx_stats_ok : stats_of (gx 3330) = Ok (gx_stats (gx 3330)).
Proof. vm_compute. reflexivity. Qed.
Lemma too_many : exists g st l, stats_of g = Ok st /\ Forall (computable st) l /\ ds_init st l = Err IndexError.
Proof.
  exists (gx 3330), (gx_stats (gx 3330)), (repeat (gx_inst 500 fx_hit) (Z.to_nat 5001)).
  assert (F : Forall (computable (gx_stats (gx 3330))) (repeat (gx_inst 500 fx_hit) (Z.to_nat 5001))).
  { apply Forall_forall. intros x I. apply repeat_spec in I as ->. apply gx_computable. }
  split; [exact gx_stats_ok|]. split; [exact F|]. apply (init_overflows (gx 3330) _ _ gx_stats_ok F). rewrite repeat_length. lia.
Qed.

(** ** C37, C38: refutations *)
Lemma not_exactly_one : exists st l sim u rs os, ds_init st l = Ok sim /\ damage_ranges (ds_tracker sim) u = Ok rs /\ fair u
  /\ In os rs /\ ~ (total_prob os == 1)%Q.
Proof.
  exists (gx_stats (gx 3330)), gx_hits, gx_sim, half_draws.
  exists (map (fun r => row_outcomes r (half_draws 0)) gx_rows), (match gx_rows with r :: _ => row_outcomes r (half_draws 0) | [] => [] end).
  split; [vm_compute; reflexivity|]. split; [vm_compute; reflexivity|]. split; [intros i k; cbn; lra|].
  split; [vm_compute; left; reflexivity|]. vm_compute. discriminate.
Qed.
Lemma zero_draw_escapes : exists g st l sim u v rs m os cells d crit dh o,
  stats_of g = Ok st /\ (0 <= g_crit g)%Q /\ Forall mults_nonneg l /\ (forall i k, drawn (u i k)) /\ (forall i j, drawn (v i j))
  /\ ds_init st l = Ok sim /\ damage_ranges (ds_tracker sim) u = Ok rs /\ compute_damage (ds_tracker sim) 1 v = Ok m
  /\ nth_error rs 0 = Some os /\ nth_error m 0 = Some cells /\ nth_error cells 0 = Some (d, crit, dh)
  /\ In o os /\ o_label o = label_of crit dh /\ ~ (o_low o <= d)%Q.
Proof.
  exists (gx 3330), (gx_stats (gx 3330)), gx_hits, gx_sim, zero_draws, half_draws.
  exists (map (fun r => row_outcomes r (zero_draws 0)) gx_rows), (map (fun r => [sample_cell r (half_draws 0 0)]) gx_rows).
  exists (match gx_rows with r :: _ => row_outcomes r (zero_draws 0) | [] => [] end).
  exists (match gx_rows with r :: _ => [sample_cell r (half_draws 0 0)] | [] => [] end).
  exists (match gx_rows with r :: _ => fst (fst (sample_cell r (half_draws 0 0))) | [] => 0%Q end), false, false.
  exists (match gx_rows with r :: _ => hd (mkOutcome "" 0 0 0) (row_outcomes r (zero_draws 0)) | [] => mkOutcome "" 0 0 0 end).
  split; [exact gx_stats_ok|]. split; [vm_compute; discriminate|]. split.
  { repeat constructor; try (vm_compute; discriminate); intros d [= <-]; exact I. }
  split; [intros i k; cbn; lra|]. split; [intros i k; cbn; lra|]. split; [vm_compute; reflexivity|]. split; [vm_compute; reflexivity|].
  split; [vm_compute; reflexivity|]. split; [vm_compute; reflexivity|]. split; [vm_compute; reflexivity|]. split; [vm_compute; reflexivity|].
  split; [vm_compute; left; reflexivity|]. split; [vm_compute; reflexivity|]. vm_compute. intros H. apply H. reflexivity.
Qed.

(** ** C40 *)
(** A stable sort is one way to sort. *)
Definition stable_argsort (ts : list Z) : list nat := map snd (sort_by fst (combine ts (seq 0 (List.length ts)))).
Lemma combine_seq_in (ts : list Z) : forall k t i, In (t, i) (combine ts (seq k (List.length ts))) -> (k <= i)%nat /\ nth (i - k) ts 0 = t.
Proof.
  induction ts as [|a ts IH]; intros k t i I; [destruct I|]. cbn in I. destruct I as [E|I].
  - injection E as <- <-. rewrite Nat.sub_diag. auto.
  - apply IH in I as (L & E). split; [lia|]. replace (i - k)%nat with (S (i - S k)) by lia. exact E.
Qed.
Lemma map_snd_combine {A B} (l : list A) (l' : list B) : List.length l = List.length l' -> map snd (combine l l') = l'.
Proof. revert l'. induction l as [|a l IH]; intros [|b l'] E; try discriminate; [reflexivity|]. cbn. f_equal. apply IH. injection E; auto. Qed.
Lemma stable_argsort_sorts : sorts stable_argsort.
Proof.
  intros ts. unfold stable_argsort. set (c := combine ts (seq 0 (List.length ts))). pose proof (sort_by_perm fst c) as P. split.
  - apply (Permutation_map snd) in P. eapply Permutation_trans; [exact P|]. unfold c. rewrite map_snd_combine; [reflexivity|]. rewrite seq_length. reflexivity.
  - rewrite map_map. pose proof (sort_by_sorted fst c) as S.
    assert (F : forall x, In x (sort_by fst c) -> nth (snd x) ts 0 = fst x).
    { intros [t i] I. apply (Permutation_in _ P) in I. apply combine_seq_in in I as (_ & E). rewrite Nat.sub_0_r in E. exact E. }
    clear P. induction S as [|x l S IH G]; cbn; constructor.
    + apply IH. intros y I. apply F. right. exact I.
    + apply Forall_forall. intros z I. apply in_map_iff in I as (y & <- & I). rewrite Forall_forall in G. specialize (G y I).
      rewrite (F x (or_introl eq_refl)), (F y (or_intror I)). exact G.
Qed.

Lemma kill_time hp rots n argsort ks : sorts argsort -> estimate_kill_time hp rots n argsort = Ok ks ->
  exists parts, Forall2 (fun bu p => rotation_rows n (fst bu) (snd bu) = Ok p) rots parts
    /\ (cells_nonneg (List.concat (map snd parts)) ->
        exists deaths, fates hp (List.concat (map snd parts)) n deaths /\ ks = reported deaths).
Proof. exact (estimate_fates hp rots n argsort ks). Qed.
Lemma kill_cells_nonneg n rots parts : Forall2 (fun bu p => rotation_rows n (fst bu) (snd bu) = Ok p) rots parts ->
  Forall (fun bu => (exists g, stats_of g = Ok (b_stats (fst bu)) /\ (0 <= g_crit g)%Q) /\ hits_nonneg (fst bu) /\ draws_ok (snd bu)) rots ->
  cells_nonneg (List.concat (map snd parts)).
Proof.
  induction 1 as [|[b u] [b' rows] rots parts R F IH]; intros H; [intros r x []|]. inversion H as [|? ? ((g & G & C) & HN & D) H']; subst.
  intros r x I. cbn in I. apply in_app_or in I as [I|I]; [|apply (IH H' r x I)].
  apply (rotation_cells_nonneg n b u b' rows g G C HN D R r x I).
Qed.
Lemma more_hp hp hp' rots n argsort ks ks' : sorts argsort -> (hp <= hp')%Q ->
  Forall (fun bu => (exists g, stats_of g = Ok (b_stats (fst bu)) /\ (0 <= g_crit g)%Q) /\ hits_nonneg (fst bu) /\ draws_ok (snd bu)) rots ->
  estimate_kill_time hp rots n argsort = Ok ks -> estimate_kill_time hp' rots n argsort = Ok ks' ->
  exists deaths deaths', ks = reported deaths /\ ks' = reported deaths' /\ Forall2 not_earlier deaths deaths'.
Proof.
  intros A L W H H'. destruct (estimate_fates _ _ _ _ _ A H) as (parts & F & K). destruct (estimate_fates _ _ _ _ _ A H') as (parts' & F' & K').
  assert (E : parts' = parts).
  { clear -F F'. revert parts' F'. induction F as [|? ? ? ? R F IH]; intros p' F'; inversion F'; subst; [reflexivity|]. f_equal; [congruence|auto]. }
  subst parts'. pose proof (kill_cells_nonneg n rots parts F W) as N. destruct (K N) as (d & D & ->). destruct (K' N) as (d' & D' & ->).
  exists d, d'. split; [reflexivity|]. split; [reflexivity|]. apply (fates_later hp hp' _ n d d' L D D').
Qed.

(** A rotation to kill something with. *)
Definition kx_rotation (first : string) : builder :=
  fst (ran (and_next (and_next (fx_builder false false (Some 0) (RWTuple [])) first 1 None) "Hit" 2 None)).
Definition kx_draws : rotation_draws := mkDraws half_draws (fun i j => ((Z.of_nat j # 2), (1 # 2), (1 # 2))%Q) (fun _ _ => (1 # 2)%Q).
Definition kx_insts (b : builder) : list instance :=
  match (let* tk := db_init (b_stats b) (b_library b) in let* b' := get_skill_timing b in get_damage_instances tk (b_queue b')) with
  | Ok (_, _, l) => l
  | Err _ => []
  end.
Definition mults_ok (x : instance) : bool :=
  Qle_bool 0 (ef_damage_mult (fst (di_effects x))) && Qle_bool 0 (ef_damage_mult (snd (di_effects x)))
  && match get_damage_spec (di_skill x) (di_modifier x) with
     | Ok (Some d) => match trait_damage_mult_override d with Some t => Qle_bool 0 t | None => true end
     | _ => true
     end.
Lemma mults_ok_sound x : mults_ok x = true -> mults_nonneg x.
Proof.
  unfold mults_ok, mults_nonneg. rewrite !andb_true_iff, !Qle_bool_iff. intros ((A & B) & C). split; [exact A|]. split; [exact B|].
  intros d E. rewrite E in C. destruct (trait_damage_mult_override d); cbn; [apply Qle_bool_iff, C|exact I].
Qed.
Lemma hits_checked b : forallb mults_ok (kx_insts b) = true -> hits_nonneg b.
Proof.
  intros C tk b' tk' qu' l H1 H2 H3. unfold kx_insts in C. rewrite H1 in C. cbn [bind] in C. rewrite H2 in C. cbn [bind] in C. rewrite H3 in C.
  apply Forall_forall. intros x I. rewrite forallb_forall in C. apply mults_ok_sound, C, I.
Qed.
Definition fx_gear : gear :=
  mkGear (q 126) (Some (dec 344 100)) (q 2945) (q 1620) (q 1620) (q 2377) (q 708) "test_job" "test" None (q 5) None 90.
