(** * Reports of the simulator (C79-C81) *)

From Coq Require Import ZArith QArith Qround Qabs List String Bool Lia Lqa Permutation Sorted.
From Verif Require Import Base BaseFacts Float FloatFacts Strings Types Lookup StatusEffect Stats Library Heap Events Rotation DamageBuild Damage Report
  SpecHit SpecQueue HeapFacts EventsFacts HitFacts HitOutcomes SimFacts HitProps KillFacts LaterFacts DamageTrace SpecRun SpecReport.
Import ListNotations.
Open Scope string_scope.
Open Scope Z_scope.
Local Opaque fl dec.

(** ** Making a simulator *)

Lemma make_inv st l n a b u v s : make_sim st l n a b u v = Ok s ->
  exists sim rs m, ds_init st l = Ok sim /\ damage_ranges (ds_tracker sim) u = Ok rs /\ rs <> []
    /\ compute_damage (ds_tracker sim) n v = Ok m
    /\ s = mkSim sim (map expected_of rs) (map variance_of rs) (if b then Some (crits m) else None) (if b then Some (dhs m) else None)
             (if a then Some (damages m) else None) (sampled_damage m n) (sampled_dps (fight_time (ds_instances sim)) (sampled_damage m n)).
Proof.
  unfold make_sim. intros H. apply bind_ok in H as (sim & Ei & H). apply bind_ok in H as ([ex va] & Ee & H).
  apply bind_ok in H as (m & Em & H). injection H as <-. unfold expected_and_variance in Ee. apply bind_ok in Ee as (rs & Er & Ee).
  exists sim, rs, m. split; [exact Ei|]. split; [exact Er|]. destruct rs as [|o rs]; [discriminate Ee|].
  split; [discriminate|]. split; [exact Em|]. cbv iota in Ee. assert (E : (map expected_of (o :: rs), map variance_of (o :: rs)) = (ex, va)) by congruence.
  apply pair_equal_spec in E as [<- <-]. reflexivity.
Qed.
Lemma make_ok st l n a b u v sim : ds_init st l = Ok sim -> l <> [] -> exists s, make_sim st l n a b u v = Ok s.
Proof.
  intros E NE. destruct (sim_rows st l sim E) as (Es & _ & F & R). apply F2_length in R. rewrite Es, sort_length in R.
  unfold make_sim, expected_and_variance, damage_ranges, compute_damage. rewrite E. cbn [bind]. rewrite F. cbn [bind].
  destruct (dt_rows (ds_tracker sim)) as [|r rows] eqn:ER; [destruct l; [congruence|discriminate R]|].
  cbn [mapi_from bind]. eexists. reflexivity.
Qed.

Lemma sorted_in_order l : in_time_order l (sort_by di_time l).
Proof.
  split; [symmetry; apply sort_by_perm|]. split; [exact (sort_by_sorted di_time l)|]. intros t. apply sort_by_stable.
Qed.

Lemma same_by_time (xs : list instance) : forall ys,
  StronglySorted (fun x y => di_time x <= di_time y) xs -> StronglySorted (fun x y => di_time x <= di_time y) ys ->
  (forall t, filter (fun x => di_time x =? t) xs = filter (fun x => di_time x =? t) ys) -> xs = ys.
Proof.
  assert (N : forall y ys x, StronglySorted (fun x y => di_time x <= di_time y) (y :: ys) -> di_time x < di_time y ->
    filter (fun z => di_time z =? di_time x) (y :: ys) = []).
  { intros y ys x S L. inversion S as [|? ? _ F]; subst. rewrite Forall_forall in F.
    cbn [filter]. replace (di_time y =? di_time x) with false by (symmetry; apply Z.eqb_neq; lia).
    assert (G : forall zs, (forall z, In z zs -> di_time y <= di_time z) -> filter (fun z => di_time z =? di_time x) zs = []).
    { induction zs as [|z zs IH]; intros B; [reflexivity|]. cbn [filter]. pose proof (B z (or_introl eq_refl)).
      replace (di_time z =? di_time x) with false by (symmetry; apply Z.eqb_neq; lia). apply IH. intros w I. apply B. right. exact I. }
    apply G, F. }
  induction xs as [|x xs IH]; intros [|y ys] S S' H; [reflexivity| | |].
  - specialize (H (di_time y)). cbn [filter] in H. rewrite Z.eqb_refl in H. discriminate H.
  - specialize (H (di_time x)). cbn [filter] in H. rewrite Z.eqb_refl in H. discriminate H.
  - assert (E : di_time x = di_time y).
    { destruct (Z.lt_trichotomy (di_time x) (di_time y)) as [L|[L|L]]; [|exact L|].
      - specialize (H (di_time x)). rewrite (N y ys x S' L) in H. cbn [filter] in H. rewrite Z.eqb_refl in H. discriminate H.
      - specialize (H (di_time y)). rewrite (N x xs y S L) in H. cbn [filter] in H. rewrite Z.eqb_refl in H. discriminate H. }
    assert (x = y).
    { specialize (H (di_time x)). cbn [filter] in H. rewrite <- E, Z.eqb_refl in H. congruence. }
    subst y. f_equal. inversion S; inversion S'; subst. apply IH; [assumption|assumption|].
    intros t. specialize (H t). cbn [filter] in H. destruct (di_time x =? t); congruence.
Qed.
Lemma order_unique l xs : in_time_order l xs -> xs = sort_by di_time l.
Proof.
  intros (_ & S & F). destruct (sorted_in_order l) as (_ & S' & F'). apply same_by_time; [exact S|exact S'|].
  intros t. rewrite F, F'. reflexivity.
Qed.

(** ** Lines *)

Lemma sum_ext {A} (f g : A -> Q) l : (forall x, In x l -> f x == g x)%Q -> (qsum (map f l) == sum (map g l))%Q.
Proof.
  unfold qsum, sum. induction l as [|x l IH]; intros H; cbn [map fold_right]; [reflexivity|].
  rewrite (H x (or_introl eq_refl)), IH; [reflexivity|]. intros y I. apply H. right. exact I.
Qed.
Lemma middle_mean o : (o_mean o == middle o)%Q.
Proof. unfold o_mean, middle. field. Qed.
Lemma expected_mean os : (expected_of os == mean_of os)%Q.
Proof. unfold expected_of, mean_of. apply sum_ext. intros o _. rewrite middle_mean. reflexivity. Qed.
Lemma sum_split {A} (f g h : A -> Q) l : (forall x, h x == f x * (1 # 12) + g x)%Q ->
  (sum (map h l) == qsum (map f l) / 12 + qsum (map g l))%Q.
Proof.
  intros H. unfold sum, qsum. induction l as [|x l IH]; cbn [map fold_right]; [reflexivity|].
  rewrite IH, (H x). field.
Qed.
Lemma variance_spread os : (variance_of os == spread_of os)%Q.
Proof.
  unfold variance_of, spread_of. rewrite !expected_mean.
  rewrite (sum_split (fun o => o_prob o * (o_diff o * o_diff o))%Q (fun o => o_prob o * (o_mean o * o_mean o))%Q); [unfold Qminus; ring|].
  intros o. rewrite !middle_mean. unfold o_diff. ring.
Qed.

Lemma row_line st x r os : row_of st x = Ok r -> line_of x os (per_instance x r (expected_of os) (variance_of os)).
Proof.
  intros H. unfold row_of in H. apply bind_ok in H as (b & Eb & H). apply bind_ok in H as (b' & Eb' & H).
  apply bind_ok in H as (sp & Es & H). apply bind_ok in H as (d & Ed & H). destruct sp as [d'|]; [|discriminate]. injection Ed as <-.
  apply bind_ok in H as ([[dh crit] bonus] & Er & H). injection H as <-.
  unfold line_of, per_instance. cbn [pd_time pd_name pd_cond pd_effects pd_id pd_target pd_potency pd_class pd_expected pd_variance r_time r_potency r_cond r_effects r_class].
  do 6 (split; [reflexivity|]). split; [exists d'; auto|]. split; [apply expected_mean|apply variance_spread].
Qed.

Lemma lines_ok st xs : forall rows (rs : list (list outcome)), Forall2 (fun x r => row_of st x = Ok r) xs rows -> List.length rs = List.length rows ->
  Forall2 (fun xo p => line_of (fst xo) (snd (snd xo)) p /\ pd_snapshot p = None)
    (combine xs (combine (map (fun x => sk_name (di_skill x)) xs) rs))
    (map (fun y => per_instance (fst (fst y)) (snd (fst y)) (fst (snd y)) (snd (snd y)))
       (combine (combine xs rows) (combine (map expected_of rs) (map variance_of rs)))).
Proof.
  intros rows rs F. revert rs. induction F as [|x r xs rows H F IH]; intros [|o rs] L; try discriminate L; cbn [map combine]; constructor.
  - cbn [fst snd]. split; [apply (row_line st), H|reflexivity].
  - apply IH. cbn in L. congruence.
Qed.
Lemma combine_fst {A B} (l : list A) : forall (m : list B), List.length m = List.length l -> map fst (combine l m) = l.
Proof. induction l as [|a l IH]; intros [|b m] L; try discriminate L; cbn; [reflexivity|]. rewrite IH by (cbn in L; congruence). reflexivity. Qed.

Lemma times_rows st xs rows : Forall2 (fun x r => row_of st x = Ok r) xs rows -> map r_time rows = map di_time xs.
Proof.
  induction 1 as [|x r xs rows H F IH]; [reflexivity|]. cbn [map]. rewrite IH. f_equal.
  destruct (row_line st x r [] H) as (E & _). exact E.
Qed.
Lemma rates_rows st xs rows : Forall2 (fun x r => row_of st x = Ok r) xs rows ->
  forall i x, nth_error xs i = Some x -> exists c h t, nth_error (map r_crit_rate rows) i = Some c /\ nth_error (map r_dh_rate rows) i = Some h
    /\ nth_error (map r_trait rows) i = Some t /\ rates_of st x c h t.
Proof.
  induction 1 as [|x r xs rows H F IH]; intros [|i] y E; try discriminate E; cbn [nth_error] in E.
  - injection E as <-. exists (r_crit_rate r), (r_dh_rate r), (r_trait r). do 3 (split; [reflexivity|]).
    apply row_of_ok in H as (d & b & Ed & _ & Er & _ & _ & ET). exists d, (r_crit_bonus r). auto.
  - destruct (IH i y E) as (c & h & t & A). exists c, h, t. exact A.
Qed.

Lemma report_lines st l n a b u v s : make_sim st l n a b u v = Ok s ->
  exists xs ranges ps, in_time_order l xs /\ get_damage_ranges s u = Ok ranges /\ get_per_skill_damage s None = Ok ps
    /\ map fst ranges = map (fun x => sk_name (di_skill x)) xs
    /\ Forall2 (fun xo p => line_of (fst xo) (snd (snd xo)) p /\ pd_snapshot p = None) (combine xs ranges) ps
    /\ List.length ps = List.length l
    /\ get_event_ids s = map di_id xs /\ get_damage_time s = map di_time xs
    /\ get_expected_damage_per_damage_instance s = map pd_expected ps
    /\ get_variance_per_damage_instance s = map pd_variance ps
    /\ get_expected_damage s = sum (map pd_expected ps) /\ get_damage_variance s = sum (map pd_variance ps).
Proof.
  intros H. destruct (make_inv _ _ _ _ _ _ _ _ H) as (sim & rs & m & Ei & Er & NE & Em & ->).
  destruct (sim_rows st l sim Ei) as (Es & _ & F & R). pose proof (F2_length _ _ _ R) as LR.
  destruct (ranges_at _ _ _ Er) as (Lrs & _).
  exists (ds_instances sim), (combine (map (fun x => sk_name (di_skill x)) (ds_instances sim)) rs). eexists.
  split; [rewrite Es; apply sorted_in_order|].
  split; [unfold get_damage_ranges; cbn [sim_base]; rewrite Er; reflexivity|]. split; [reflexivity|].
  assert (L1 : List.length rs = List.length (ds_instances sim)) by congruence.
  split; [apply combine_fst; rewrite map_length; exact L1|].
  pose proof (lines_ok st _ _ rs R Lrs) as FL. unfold per_skill_rows. cbn [sim_base sim_expected sim_variance].
  split; [exact FL|]. split; [rewrite map_length, !combine_length, !map_length, <- (sort_length di_time l), <- Es; lia|].
  split; [reflexivity|]. split; [exact (times_rows st _ _ R)|].
  assert (PE : forall (xs : list instance) rows (es vs : list Q), List.length rows = List.length xs -> List.length es = List.length xs -> List.length vs = List.length xs ->
     es = map pd_expected (map (fun y => per_instance (fst (fst y)) (snd (fst y)) (fst (snd y)) (snd (snd y))) (combine (combine xs rows) (combine es vs)))
     /\ vs = map pd_variance (map (fun y => per_instance (fst (fst y)) (snd (fst y)) (fst (snd y)) (snd (snd y))) (combine (combine xs rows) (combine es vs)))).
  { induction xs as [|x xs IH]; intros [|r rows] [|e es] [|w vs] A B C; try discriminate; [split; reflexivity|].
    cbn [combine map]. destruct (IH rows es vs) as [IH1 IH2]; [cbn in A; congruence|cbn in B; congruence|cbn in C; congruence|].
    split; f_equal; assumption. }
  destruct (PE (ds_instances sim) (dt_rows (ds_tracker sim)) (map expected_of rs) (map variance_of rs)) as [P1 P2];
    [congruence|rewrite map_length; exact L1|rewrite map_length; exact L1|].
  unfold get_expected_damage_per_damage_instance, get_variance_per_damage_instance, get_expected_damage, get_damage_variance.
  cbn [sim_expected sim_variance]. rewrite <- P1, <- P2. repeat (split; [reflexivity|]). reflexivity.
Qed.

Lemma report_rates st l n a b u v s xs : make_sim st l n a b u v = Ok s -> in_time_order l xs ->
  exists cs hs ts, get_crit_and_dh_rates s = Ok (cs, hs) /\ get_trait_damage_mult s = Ok ts
    /\ List.length cs = List.length l /\ List.length hs = List.length l /\ List.length ts = List.length l
    /\ forall i x, nth_error xs i = Some x -> exists c h t, nth_error cs i = Some c /\ nth_error hs i = Some h /\ nth_error ts i = Some t
         /\ rates_of st x c h t.
Proof.
  intros H O. apply order_unique in O as ->. destruct (make_inv _ _ _ _ _ _ _ _ H) as (sim & rs & m & Ei & Er & NE & Em & ->).
  destruct (sim_rows st l sim Ei) as (Es & _ & F & R). rewrite <- Es. pose proof (F2_length _ _ _ R) as LR. rewrite Es, sort_length in LR.
  unfold get_crit_and_dh_rates, get_trait_damage_mult. cbn [sim_base]. rewrite F. do 3 eexists. split; [reflexivity|]. split; [reflexivity|].
  rewrite !map_length. do 3 (split; [congruence|]). exact (rates_rows st _ _ R).
Qed.

(** ** Samples *)

Lemma nth_map_cells {A B} (f : A -> B) (m : list (list A)) i cells : nth_error (map (map f) m) i = Some cells ->
  exists cs, nth_error m i = Some cs /\ cells = map f cs.
Proof. rewrite nth_error_map. destruct (nth_error m i) as [cs|]; cbn; [|discriminate]. intros [= <-]. eauto. Qed.
Lemma nth_map_some {A B} (f : A -> B) l i y : nth_error (map f l) i = Some y -> exists x, nth_error l i = Some x /\ y = f x.
Proof. rewrite nth_error_map. destruct (nth_error l i) as [x|]; cbn; [|discriminate]. intros [= <-]. eauto. Qed.

Lemma raw_columns m n : sampled_damage m n = map (fun j => sum (map (fun r => nth j r 0%Q) (damages m))) (seq 0 n).
Proof.
  unfold sampled_damage, damages. apply map_ext. intros j. unfold qsum, sum. f_equal. rewrite map_map. apply map_ext. intros cells.
  revert j. induction cells as [|[[d c] h] cells IH]; intros [|j]; cbn; auto.
Qed.
Lemma fight_seconds xs : fight_time xs = seconds xs.
Proof.
  unfold fight_time, seconds. destruct xs as [|x xs]; [reflexivity|]. cbn [map].
  assert (G : forall (l : list instance) d, di_time (last l d) = last (map di_time l) (di_time d)).
  { induction l as [|a l IH]; intros d; [reflexivity|]. cbn [last map]. destruct l as [|b l]; [reflexivity|]. rewrite IH. reflexivity. }
  assert (D : forall (l : list Z) d d', l <> [] -> last l d = last l d').
  { induction l as [|a l IH]; intros d d' NE; [congruence|]. cbn [last]. destruct l; [reflexivity|]. apply IH. discriminate. }
  rewrite (G (x :: xs) x). cbn [map]. rewrite (D (di_time x :: map di_time xs) (di_time x) 0) by discriminate. reflexivity.
Qed.

Lemma report_samples st l n u v s xs : make_sim st l n true true u v = Ok s -> in_time_order l xs ->
  exists m cr dh, get_damage_matrix s = Some m /\ get_crit_status s = Ok cr /\ get_dh_status s = Ok dh
    /\ (List.length m = List.length l /\ List.length cr = List.length l /\ List.length dh = List.length l)
    /\ (forall r, In r m -> List.length r = n) /\ (forall r, In r cr -> List.length r = n) /\ (forall r, In r dh -> List.length r = n)
    /\ get_raw_damage s = map (fun j => sum (map (fun r => nth j r 0%Q) m)) (seq 0 n)
    /\ get_dps s = map (fun d => if Qle_bool (seconds xs) 0 then None else Some (d / seconds xs)%Q) (get_raw_damage s)
    /\ forall i j x cs hs c h, nth_error xs i = Some x -> nth_error cr i = Some cs -> nth_error dh i = Some hs -> nth_error cs j = Some c -> nth_error hs j = Some h ->
         exists crit dh t, rates_of st x crit dh t
           /\ (c = true <-> (snd (fst (v i j)) <= crit)%Q) /\ (h = true <-> (snd (v i j) <= dh)%Q).
Proof.
  intros H O. apply order_unique in O as ->. destruct (make_inv _ _ _ _ _ _ _ _ H) as (sim & rs & m & Ei & Er & NE & Em & ->).
  destruct (sim_rows st l sim Ei) as (Es & _ & F & R). pose proof (F2_length _ _ _ R) as LR. rewrite Es, sort_length in LR.
  destruct (cells_at _ _ _ _ Em) as (Lm & C). exists (damages m), (crits m), (dhs m). do 3 (split; [reflexivity|]).
  unfold damages, crits, dhs. rewrite !map_length. split; [repeat split; congruence|].
  assert (LN : forall cells, In cells m -> List.length cells = n).
  { intros cells I. apply In_nth_error in I as (i & E). destruct (nth_of_lt (dt_rows (ds_tracker sim)) i) as (r & Er').
    - rewrite <- Lm. apply nth_error_Some. congruence.
    - rewrite (C i r Er') in E. injection E as <-. rewrite map_length, seq_length. reflexivity. }
  assert (LF : forall (B : Type) (f : Q * bool * bool -> B) r, In r (map (map f) m) -> List.length r = n).
  { intros B f r I. apply in_map_iff in I as (cs & <- & I). rewrite map_length. apply LN, I. }
  do 3 (split; [apply LF|]). split; [apply raw_columns|]. split.
  { unfold get_dps, get_raw_damage. cbn [sim_dps sim_damage]. rewrite Es, fight_seconds. unfold sampled_dps. apply map_ext. intros d.
    unfold qltb. destruct (Qle_bool (seconds (sort_by di_time l)) 0); reflexivity. }
  intros i j x cs hs c h Ex Ec Eh Ecj Ehj. rewrite <- Es in Ex.
  apply nth_map_cells in Ec as (cells & Ei1 & ->). apply nth_map_cells in Eh as (cells' & Ei2 & ->).
  rewrite Ei1 in Ei2. injection Ei2 as <-. apply nth_map_some in Ecj as ([[d c1] h1] & Ec1 & ->). apply nth_map_some in Ehj as (y & Ec2 & ->).
  rewrite Ec1 in Ec2. injection Ec2 as <-. cbn [fst snd].
  destruct (sample_drawn st l sim v n m i x cells j d c1 h1 Ei Em Ex Ei1 Ec1) as (sp & c & h & Es1 & Er1 & A & B).
  exists c, h. eexists. split; [exists sp; eexists; split; [exact Es1|]; split; [exact Er1|reflexivity]|]. split; assumption.
Qed.

Lemma report_cells g st l n u u' v s : stats_of g = Ok st -> (0 <= g_crit g)%Q -> Forall mults_nonneg l -> fair u' -> (forall i j, drawn (v i j)) ->
  make_sim st l n true true u v = Ok s ->
  exists ranges m cr dh, get_damage_ranges s u' = Ok ranges /\ get_damage_matrix s = Some m /\ get_crit_status s = Ok cr /\ get_dh_status s = Ok dh
    /\ forall i j nm os ds cs hs d c h, nth_error ranges i = Some (nm, os) -> nth_error m i = Some ds -> nth_error cr i = Some cs -> nth_error dh i = Some hs ->
         nth_error ds j = Some d -> nth_error cs j = Some c -> nth_error hs j = Some h ->
         exists o, In o os /\ o_label o = label_of c h /\ (o_low o <= d <= o_high o)%Q.
Proof.
  intros G C0 M U V H. destruct (make_inv _ _ _ _ _ _ _ _ H) as (sim & rs & m & Ei & Er & NE & Em & ->).
  destruct (sim_rows st l sim Ei) as (Es & _ & F & R). pose proof (F2_length _ _ _ R) as LR.
  destruct (damage_ranges (ds_tracker sim) u') as [rs'|e] eqn:Er'; [|unfold damage_ranges in Er'; rewrite F in Er'; discriminate].
  exists (combine (map (fun x => sk_name (di_skill x)) (ds_instances sim)) rs'), (damages m), (crits m), (dhs m).
  split; [unfold get_damage_ranges; cbn [sim_base]; rewrite Er'; reflexivity|]. do 3 (split; [reflexivity|]).
  intros i j nm os ds cs hs d c h Eo Ed Ec Eh Edj Ecj Ehj.
  apply nth_map_cells in Ed as (cells & Ei0 & ->). apply nth_map_cells in Ec as (cells1 & Ei1 & ->). apply nth_map_cells in Eh as (cells2 & Ei2 & ->).
  rewrite Ei0 in Ei1, Ei2. injection Ei1 as <-. injection Ei2 as <-.
  apply nth_map_some in Edj as ([[d0 c0] h0] & E0 & ->). apply nth_map_some in Ecj as (y & E1 & ->). apply nth_map_some in Ehj as (z & E2 & ->).
  rewrite E0 in E1, E2. injection E1 as <-. injection E2 as <-. cbn [fst snd].
  assert (Eos : nth_error rs' i = Some os /\ exists x, nth_error (ds_instances sim) i = Some x).
  { clear - Eo. revert rs' i Eo. generalize (ds_instances sim). induction l as [|x xs IH]; intros [|o rs] [|i] Eo; try discriminate Eo.
    - cbn in Eo. injection Eo as <- <-. cbn. eauto.
    - cbn in Eo |- *. apply IH, Eo. }
  destruct Eos as [Eos (x & Ex)].
  destruct (sample_in_range g st l sim u' v rs' n m i x os cells j d0 c0 h0 G C0 M U V Ei Er' Em Ex Eos Ei0 E0) as ((o & Io & Lo) & A).
  exists o. split; [exact Io|]. split; [exact Lo|]. apply A; assumption.
Qed.

(** What is saved changes nothing else. *)
Lemma saving st l n a b u v : forall s, make_sim st l n true true u v = Ok s ->
  exists s', make_sim st l n a b u v = Ok s'
    /\ get_damage_matrix s' = (if a then get_damage_matrix s else None)
    /\ get_crit_status s' = (if b then get_crit_status s else Err AttributeError)
    /\ get_dh_status s' = (if b then get_dh_status s else Err AttributeError)
    /\ (forall rb, get_per_skill_damage s' rb = get_per_skill_damage s rb) /\ (forall u', get_damage_ranges s' u' = get_damage_ranges s u')
    /\ get_raw_damage s' = get_raw_damage s /\ get_dps s' = get_dps s /\ get_event_ids s' = get_event_ids s /\ get_damage_time s' = get_damage_time s
    /\ get_crit_and_dh_rates s' = get_crit_and_dh_rates s /\ get_trait_damage_mult s' = get_trait_damage_mult s
    /\ get_expected_damage_per_damage_instance s' = get_expected_damage_per_damage_instance s
    /\ get_variance_per_damage_instance s' = get_variance_per_damage_instance s.
Proof.
  intros s H. unfold make_sim in *. apply bind_ok in H as (sim & Ei & H). rewrite Ei. cbn [bind].
  apply bind_ok in H as ([ex va] & Ee & H). rewrite Ee. cbn [bind]. apply bind_ok in H as (m & Em & H). rewrite Em. cbn [bind].
  injection H as <-. eexists. split; [reflexivity|]. destruct a, b; repeat (split; [reflexivity|]); reflexivity.
Qed.

(** ** Snapshot times *)

Lemma table_from evs : forall d k t nm,
  zget k (fold_left (fun d e => zset (ev_id e) (ev_primary e, sk_name (ev_skill e)) d) evs d) = Some (t, nm) ->
  (exists e, In e evs /\ ev_id e = k /\ ev_primary e = t /\ sk_name (ev_skill e) = nm) \/ zget k d = Some (t, nm).
Proof.
  induction evs as [|e evs IH]; intros d k t nm H; cbn [fold_left] in H; [right; exact H|].
  apply IH in H as [(e' & I & A)|H]; [left; exists e'; split; [right; exact I|exact A]|].
  rewrite zget_zset in H. destruct (Z.eqb_spec k (ev_id e)) as [->|N]; [|right; exact H].
  injection H as <- <-. left. exists e. split; [left; reflexivity|auto].
Qed.

Lemma report_snapshots s b b' ps' : get_skill_timing b = Ok b' -> get_per_skill_damage s (Some b) = Ok ps' ->
  exists ps, get_per_skill_damage s None = Ok ps
    /\ Forall2 (fun p p' => exists e, In e (q_heap (b_queue b')) /\ ev_id e = pd_id p /\ sk_name (ev_skill e) = pd_name p
                 /\ but_snapshot p p' (ev_primary e)) ps ps'.
Proof.
  intros E H. unfold get_per_skill_damage in *. rewrite E in H. cbn [bind] in H. eexists. split; [reflexivity|].
  apply mapM_forall2 in H. induction H as [|p p' ps ps' W H IH]; constructor; [|exact IH]. clear IH H. unfold with_snapshot in W.
  destruct (zget (pd_id p) _) as [[t nm]|] eqn:Z1; [|discriminate W]. destruct (String.eqb (pd_name p) nm) eqn:Q; [|discriminate W].
  injection W as <-. apply String.eqb_eq in Q. unfold snapshot_table in Z1. apply table_from in Z1 as [(e & I & A & B & C)|Z1]; [|discriminate Z1].
  exists e. split; [apply (Permutation_in _ (get_q_perm _) I)|]. split; [exact A|]. split; [congruence|]. unfold but_snapshot. cbn. subst t. repeat (split; [reflexivity|]). reflexivity.
Qed.

(** ** Parts and order *)

Definition halves : nat -> draws := fun _ => ((1 # 2)%Q, (1 # 2)%Q, (1 # 2)%Q).
Lemma outcomes_same r (u u' : nat -> draws) : (forall i, drawn (u i) /\ not_zero (u i)) -> (forall i, drawn (u' i) /\ not_zero (u' i)) ->
  Forall2 (fun o o' => o_label o = o_label o' /\ (o_low o == o_low o')%Q /\ (o_high o == o_high o')%Q /\ o_prob o = o_prob o')
    (row_outcomes r u) (row_outcomes r u').
Proof.
  intros U U'.
  assert (A : forall k crit dh i j, (range_end r (ffloor (fmul k (r_base r))) (rate_for crit) (rate_for dh) (u i)
                == range_end r (ffloor (fmul k (r_base r))) (rate_for crit) (rate_for dh) (u' j))%Q).
  { intros k crit dh i j. destruct (U i) as [D N]. destruct (U' j) as [D' N'].
    destruct (range_end_spec r k crit dh _ D N) as (t & Et & ->). destruct (range_end_spec r k crit dh _ D' N') as (t' & Et' & ->).
    unfold after_roll. cbv zeta. rewrite Et, Et'. reflexivity. }
  unfold row_outcomes, low_init, high_init.
  constructor; [|constructor; [|constructor; [|constructor; [|constructor]]]]; cbn [o_label o_low o_high o_prob]; (split; [reflexivity|]); split; [|split; [|reflexivity]| |split; [|reflexivity]| |split; [|reflexivity]| |split; [|reflexivity]].
  - exact (A (dec 95 100) false false 0%nat 0%nat).
  - exact (A (dec 105 100) false false 1%nat 1%nat).
  - exact (A (dec 95 100) true false 2%nat 2%nat).
  - exact (A (dec 105 100) true false 3%nat 3%nat).
  - exact (A (dec 95 100) false true 4%nat 4%nat).
  - exact (A (dec 105 100) false true 5%nat 5%nat).
  - exact (A (dec 95 100) true true 6%nat 6%nat).
  - exact (A (dec 105 100) true true 7%nat 7%nat).
Qed.
Lemma sum_same {A} (R : A -> A -> Prop) (f : A -> Q) l l' : (forall x y, R x y -> f x == f y)%Q -> Forall2 R l l' -> (qsum (map f l) == qsum (map f l'))%Q.
Proof. intros H. unfold qsum. induction 1 as [|x y l l' E F IH]; cbn [map fold_right]; [reflexivity|]. rewrite (H x y E), IH. reflexivity. Qed.
Lemma mean_same os os' :
  Forall2 (fun o o' => o_label o = o_label o' /\ (o_low o == o_low o')%Q /\ (o_high o == o_high o')%Q /\ o_prob o = o_prob o') os os' ->
  (expected_of os == expected_of os' /\ variance_of os == variance_of os')%Q.
Proof.
  intros F. assert (E : (expected_of os == expected_of os')%Q).
  { unfold expected_of. eapply sum_same; [|exact F]. cbv beta. intros o o' (_ & A & B & C). unfold o_mean. rewrite A, B, C. reflexivity. }
  split; [exact E|]. unfold variance_of. rewrite E. apply Qplus_comp; [apply Qdiv_comp; [|reflexivity]|apply Qplus_comp; [|reflexivity]].
  - eapply sum_same; [|exact F]. cbv beta. intros o o' (_ & A & B & C). unfold o_diff. rewrite A, B, C. reflexivity.
  - eapply sum_same; [|exact F]. cbv beta. intros o o' (_ & A & B & C). unfold o_mean. rewrite A, B, C. reflexivity.
Qed.
Definition row_mean (r : row) : Q := expected_of (row_outcomes r halves).
Definition row_spread (r : row) : Q := variance_of (row_outcomes r halves).
Lemma halves_fair i : drawn (halves i) /\ not_zero (halves i).
Proof. cbn. repeat split; lra. Qed.
Lemma ranges_sum u rows : fair u -> forall i,
  (qsum (map expected_of (mapi_from (fun i r => row_outcomes r (u i)) i rows)) == qsum (map row_mean rows)
   /\ qsum (map variance_of (mapi_from (fun i r => row_outcomes r (u i)) i rows)) == qsum (map row_spread rows))%Q.
Proof.
  intros U. unfold qsum. induction rows as [|r rows IH]; intros i; cbn [mapi_from map fold_right]; [split; reflexivity|].
  destruct (mean_same _ _ (outcomes_same r (u i) halves (U i) halves_fair)) as [A B]. destruct (IH (S i)) as [C D].
  rewrite A, B, C, D. split; reflexivity.
Qed.
Lemma totals_rows st l n a b u v s : fair u -> make_sim st l n a b u v = Ok s ->
  exists rows, Forall2 (fun x r => row_of st x = Ok r) l rows
    /\ (get_expected_damage s == qsum (map row_mean rows))%Q /\ (get_damage_variance s == qsum (map row_spread rows))%Q
    /\ Z.of_nat (List.length l) <= 5000 /\ l <> [].
Proof.
  intros U H. destruct (make_inv _ _ _ _ _ _ _ _ H) as (sim & rs & m & Ei & Er & NE & Em & ->).
  destruct (sim_rows st l sim Ei) as (Es & _ & F & R). rewrite Es in R.
  unfold damage_ranges in Er. rewrite F in Er. injection Er as <-. destruct (ranges_sum u (dt_rows (ds_tracker sim)) U 0) as [A B].
  assert (P : forall xs ys (rows : list row), Permutation xs ys -> Forall2 (fun x r => row_of st x = Ok r) xs rows ->
     exists rows', Permutation rows rows' /\ Forall2 (fun x r => row_of st x = Ok r) ys rows').
  { intros xs ys rows P. revert rows. induction P as [|x xs ys P IH|x y xs|xs ys zs P1 IH1 P2 IH2]; intros rows G.
    - inversion G; subst. exists []. split; constructor.
    - inversion G as [|? r ? rows' E G']; subst. destruct (IH _ G') as (rows1 & P1 & G1). exists (r :: rows1). split; [constructor; exact P1|constructor; assumption].
    - inversion G as [|? r ? rows' E G']; subst. inversion G' as [|? r2 ? rows2 E2 G2]; subst. exists (r2 :: r :: rows2). split; [constructor|]. repeat constructor; assumption.
    - destruct (IH1 _ G) as (rows1 & Q1 & G1). destruct (IH2 _ G1) as (rows2 & Q2 & G2). exists rows2. split; [eapply Permutation_trans; eassumption|exact G2]. }
  destruct (P _ l _ (sort_by_perm di_time l) R) as (rows & Pr & G). exists rows. split; [exact G|].
  unfold get_expected_damage, get_damage_variance. cbn [sim_expected sim_variance].
  split; [rewrite A; apply qsum_perm, Permutation_map, Pr|]. split; [rewrite B; apply qsum_perm, Permutation_map, Pr|].
  split.
  - assert (T : forall ys tr tr', foldM (compile_instance st) ys tr = Ok tr' -> Z.of_nat (List.length (dt_rows tr)) <= 5000 -> Z.of_nat (List.length (dt_rows tr')) <= 5000).
    { induction ys as [|y ys IH]; intros tr tr' E L; [injection E as <-; exact L|]. cbn in E. apply bind_ok in E as (tr1 & E1 & E).
      apply (IH tr1); [exact E|]. unfold compile_instance in E1. apply bind_ok in E1 as (r & _ & E1). apply dt_add_ok in E1 as (_ & -> & L1).
      cbn. rewrite app_length. cbn. lia. }
    unfold ds_init in Ei. apply bind_ok in Ei as (tr & Et & Ei). injection Ei as <-. apply F2_length in R. rewrite sort_length in R. cbn in R. rewrite R.
    apply (T _ _ _ Et). cbn. lia.
  - intros ->. apply F2_length in R. cbn in R. destruct (dt_rows (ds_tracker sim)); [|discriminate R]. apply NE. reflexivity.
Qed.
Lemma make_of_rows st l rows n a b u v : Forall2 (fun x r => row_of st x = Ok r) l rows -> Z.of_nat (List.length l) <= 5000 -> l <> [] ->
  exists s, make_sim st l n a b u v = Ok s.
Proof.
  intros R L NE. destruct (compile_fits st (sort_by di_time l)) with (tr := dt_init) as (tr & E);
    [|reflexivity|cbn; rewrite sort_length; exact L|].
  - intros x I. apply sort_in in I. clear - R I. induction R as [|y r l rows E R IH]; [destruct I|]. destruct I as [<-|I]; eauto.
  - apply (make_ok st l n a b u v (mkSimulator (sort_by di_time l) (dt_finalize tr) st)); [|exact NE]. unfold ds_init. rewrite E. reflexivity.
Qed.
Lemma rows_det st l rows rows' : Forall2 (fun x r => row_of st x = Ok r) l rows -> Forall2 (fun x r => row_of st x = Ok r) l rows' -> rows = rows'.
Proof. intros F. revert rows'. induction F as [|x r l rows E F IH]; intros rows' G; inversion G; subst; [reflexivity|]. f_equal; [congruence|]. apply IH. assumption. Qed.

Lemma parts_add st l1 l2 n a b u v s : fair u -> make_sim st (l1 ++ l2)%list n a b u v = Ok s -> l1 <> [] -> l2 <> [] ->
  forall n1 a1 b1 u1 v1 n2 a2 b2 u2 v2, fair u1 -> fair u2 ->
  exists s1 s2, make_sim st l1 n1 a1 b1 u1 v1 = Ok s1 /\ make_sim st l2 n2 a2 b2 u2 v2 = Ok s2
    /\ (get_expected_damage s == get_expected_damage s1 + get_expected_damage s2)%Q
    /\ (get_damage_variance s == get_damage_variance s1 + get_damage_variance s2)%Q.
Proof.
  intros U H N1 N2 n1 a1 b1 u1 v1 n2 a2 b2 u2 v2 U1 U2. destruct (totals_rows _ _ _ _ _ _ _ _ U H) as (rows & R & EE & EV & L & _).
  apply Forall2_app_inv_l in R as (r1 & r2 & R1 & R2 & ->). rewrite app_length in L.
  destruct (make_of_rows st l1 r1 n1 a1 b1 u1 v1 R1 ltac:(lia) N1) as (s1 & M1). destruct (make_of_rows st l2 r2 n2 a2 b2 u2 v2 R2 ltac:(lia) N2) as (s2 & M2).
  exists s1, s2. split; [exact M1|]. split; [exact M2|].
  destruct (totals_rows _ _ _ _ _ _ _ _ U1 M1) as (r1' & R1' & E1 & V1 & _). destruct (totals_rows _ _ _ _ _ _ _ _ U2 M2) as (r2' & R2' & E2 & V2 & _).
  rewrite (rows_det _ _ _ _ R1' R1) in E1, V1. rewrite (rows_det _ _ _ _ R2' R2) in E2, V2.
  rewrite EE, EV, E1, E2, V1, V2, !map_app. split; apply qsum_app.
Qed.
Lemma parts_join st l1 l2 n1 a1 b1 u1 v1 n2 a2 b2 u2 v2 s1 s2 n a b u v :
  fair u1 -> fair u2 -> make_sim st l1 n1 a1 b1 u1 v1 = Ok s1 -> make_sim st l2 n2 a2 b2 u2 v2 = Ok s2 ->
  Z.of_nat (List.length l1 + List.length l2) <= 5000 -> exists s, make_sim st (l1 ++ l2)%list n a b u v = Ok s.
Proof.
  intros U1 U2 M1 M2 L. destruct (totals_rows _ _ _ _ _ _ _ _ U1 M1) as (r1 & R1 & _ & _ & _ & N1). destruct (totals_rows _ _ _ _ _ _ _ _ U2 M2) as (r2 & R2 & _).
  apply (make_of_rows st _ (r1 ++ r2)%list); [apply Forall2_app; assumption|rewrite app_length; exact L|]. destruct l1; [congruence|discriminate].
Qed.

Lemma order_same st l l' n a b u v : Permutation l l' -> NoDup (map di_time l) -> make_sim st l n a b u v = make_sim st l' n a b u v.
Proof.
  intros P N. unfold make_sim, ds_init. replace (sort_by di_time l') with (sort_by di_time l); [reflexivity|].
  assert (S : forall k, NoDup (map di_time k) -> StronglySorted (fun x y => di_time x < di_time y) (sort_by di_time k)).
  { intros k Nk. assert (Nk' : NoDup (map di_time (sort_by di_time k))) by (eapply Permutation_NoDup; [apply Permutation_map; symmetry; apply sort_by_perm|exact Nk]).
    pose proof (sort_by_sorted di_time k) as So. revert Nk' So. generalize (sort_by di_time k). induction l0 as [|x xs IH]; intros Nx So; [constructor|].
    inversion So as [|? ? So' Fo]; subst. cbn in Nx. inversion Nx as [|? ? Nx1 Nx2]; subst. constructor; [apply IH; assumption|].
    rewrite Forall_forall in *. intros y I. specialize (Fo y I). unfold by_le in Fo. assert (di_time x <> di_time y); [|lia].
    intros E. apply Nx1. rewrite E. apply in_map, I. }
  apply (sorted_unique di_time); [apply S, N|apply S|].
  - eapply Permutation_NoDup; [apply Permutation_map; exact P|exact N].
  - intros x. split; intros I.
    + apply (Permutation_in _ (Permutation_sym (sort_by_perm di_time l'))), (Permutation_in _ P), (Permutation_in _ (sort_by_perm di_time l)), I.
    + apply (Permutation_in _ (Permutation_sym (sort_by_perm di_time l))), (Permutation_in _ (Permutation_sym P)), (Permutation_in _ (sort_by_perm di_time l')), I.
Qed.
Lemma order_totals st l l' n a b u v s : fair u -> Permutation l l' -> make_sim st l n a b u v = Ok s ->
  forall n' a' b' u' v', fair u' -> exists s', make_sim st l' n' a' b' u' v' = Ok s'
    /\ (get_expected_damage s' == get_expected_damage s)%Q /\ (get_damage_variance s' == get_damage_variance s)%Q.
Proof.
  intros U P H n' a' b' u' v' U'. destruct (totals_rows _ _ _ _ _ _ _ _ U H) as (rows & R & EE & EV & L & NE).
  assert (G : exists rows', Permutation rows rows' /\ Forall2 (fun x r => row_of st x = Ok r) l' rows').
  { clear - P R. revert rows R. induction P as [|x xs ys P IH|x y xs|xs ys zs P1 IH1 P2 IH2]; intros rows G.
    - inversion G; subst. exists []. split; constructor.
    - inversion G as [|? r ? rows' E G']; subst. destruct (IH _ G') as (rows1 & P1 & G1). exists (r :: rows1). split; [constructor; exact P1|constructor; assumption].
    - inversion G as [|? r ? rows' E G']; subst. inversion G' as [|? r2 ? rows2 E2 G2]; subst. exists (r2 :: r :: rows2). split; [constructor|]. repeat constructor; assumption.
    - destruct (IH1 _ G) as (rows1 & Q1 & G1). destruct (IH2 _ G1) as (rows2 & Q2 & G2). exists rows2. split; [eapply Permutation_trans; eassumption|exact G2]. }
  destruct G as (rows' & Pr & R'). destruct (make_of_rows st l' rows' n' a' b' u' v' R') as (s' & M).
  - rewrite <- (Permutation_length P). exact L.
  - intros ->. apply Permutation_sym, Permutation_nil in P. congruence.
  - exists s'. split; [exact M|]. destruct (totals_rows _ _ _ _ _ _ _ _ U' M) as (rows2 & R2 & E2 & V2 & _). rewrite (rows_det _ _ _ _ R2 R') in E2, V2.
    rewrite E2, V2, EE, EV. split; apply qsum_perm, Permutation_map, Permutation_sym, Pr.
Qed.

(** Parts one after the other, sample by sample. *)
Lemma sort_app l1 l2 : (forall x y, In x l1 -> In y l2 -> di_time x <= di_time y) ->
  sort_by di_time (l1 ++ l2)%list = (sort_by di_time l1 ++ sort_by di_time l2)%list.
Proof.
  intros H. symmetry. apply order_unique. destruct (sorted_in_order l1) as (P1 & S1 & F1). destruct (sorted_in_order l2) as (P2 & S2 & F2).
  split; [apply Permutation_app; assumption|]. split.
  - clear F1 F2. assert (Q1 : forall x, In x (sort_by di_time l1) -> In x l1) by (intros x; apply (Permutation_in _ (Permutation_sym P1))).
    assert (Q2 : forall y, In y (sort_by di_time l2) -> In y l2) by (intros y; apply (Permutation_in _ (Permutation_sym P2))).
    revert S1 Q1. generalize (sort_by di_time l1). induction l as [|x xs IH]; intros S1 Q1; [exact S2|]. inversion S1; subst. cbn. constructor.
    + apply IH; [assumption|]. intros z I. apply Q1. right. exact I.
    + apply Forall_app. split; [assumption|]. apply Forall_forall. intros y I. apply H; [apply Q1; left; reflexivity|apply Q2, I].
  - intros t. rewrite !filter_app, F1, F2. reflexivity.
Qed.
Lemma mapi_app {A B} (f : nat -> A -> B) l1 l2 : forall i, mapi_from f i (l1 ++ l2)%list = (mapi_from f i l1 ++ mapi_from f (i + List.length l1) l2)%list.
Proof.
  induction l1 as [|x l IH]; intros i; cbn [app mapi_from List.length]; [rewrite Nat.add_0_r; reflexivity|].
  rewrite IH, Nat.add_succ_r. reflexivity.
Qed.
Lemma mapi_ext {A B} (f g : nat -> A -> B) l : forall i j, (forall k a, (k < List.length l)%nat -> f (i + k)%nat a = g (j + k)%nat a) -> mapi_from f i l = mapi_from g j l.
Proof.
  induction l as [|x l IH]; intros i j H; [reflexivity|]. cbn [mapi_from]. f_equal.
  - specialize (H 0%nat x ltac:(cbn; lia)). rewrite !Nat.add_0_r in H. exact H.
  - apply IH. intros k a L. rewrite !Nat.add_succ_comm. apply H. cbn. lia.
Qed.
Lemma samples_join st l1 l2 n a b u v1 v2 u1 u2 s s1 s2 :
  (forall x y, In x l1 -> In y l2 -> di_time x <= di_time y) ->
  make_sim st l1 n a b u1 v1 = Ok s1 -> make_sim st l2 n a b u2 v2 = Ok s2 ->
  make_sim st (l1 ++ l2)%list n a b u (first_then (List.length l1) v1 v2) = Ok s ->
  (forall j, (j < n)%nat -> nth j (get_raw_damage s) 0 == nth j (get_raw_damage s1) 0 + nth j (get_raw_damage s2) 0)%Q
  /\ get_damage_matrix s = match get_damage_matrix s1, get_damage_matrix s2 with Some m1, Some m2 => Some (m1 ++ m2)%list | _, _ => None end.
Proof.
  intros O H1 H2 H. destruct (make_inv _ _ _ _ _ _ _ _ H1) as (sim1 & rs1 & m1 & Ei1 & _ & _ & Em1 & ->).
  destruct (make_inv _ _ _ _ _ _ _ _ H2) as (sim2 & rs2 & m2 & Ei2 & _ & _ & Em2 & ->).
  destruct (make_inv _ _ _ _ _ _ _ _ H) as (sim & rs & m & Ei & _ & _ & Em & ->).
  destruct (sim_rows _ _ _ Ei1) as (Es1 & _ & F1 & R1). destruct (sim_rows _ _ _ Ei2) as (Es2 & _ & F2 & R2). destruct (sim_rows _ _ _ Ei) as (Es & _ & F & R).
  rewrite Es, (sort_app l1 l2 O) in R. rewrite Es1 in R1. rewrite Es2 in R2.
  assert (ER : dt_rows (ds_tracker sim) = (dt_rows (ds_tracker sim1) ++ dt_rows (ds_tracker sim2))%list) by (apply (rows_det st _ _ _ R), Forall2_app; assumption).
  assert (EL : List.length (dt_rows (ds_tracker sim1)) = List.length l1) by (rewrite <- (F2_length _ _ _ R1), sort_length; reflexivity).
  unfold compute_damage in Em, Em1, Em2. rewrite F in Em. rewrite F1 in Em1. rewrite F2 in Em2. injection Em as <-. injection Em1 as <-. injection Em2 as <-.
  assert (EM : mapi_from (fun i r => map (fun j => sample_cell r (first_then (List.length l1) v1 v2 i j)) (seq 0 n)) 0 (dt_rows (ds_tracker sim))
     = (mapi_from (fun i r => map (fun j => sample_cell r (v1 i j)) (seq 0 n)) 0 (dt_rows (ds_tracker sim1))
        ++ mapi_from (fun i r => map (fun j => sample_cell r (v2 i j)) (seq 0 n)) 0 (dt_rows (ds_tracker sim2)))%list).
  { rewrite ER, mapi_app, EL. f_equal; apply mapi_ext; intros k r L; apply map_ext; intros j; unfold first_then.
    - rewrite EL in L. cbn [Nat.add]. replace (k <? List.length l1)%nat with true by (symmetry; apply Nat.ltb_lt, L). reflexivity.
    - cbn [Nat.add]. replace (List.length l1 + k <? List.length l1)%nat with false by (symmetry; apply Nat.ltb_ge; lia).
      replace (List.length l1 + k - List.length l1)%nat with k by lia. reflexivity. }
  rewrite EM. unfold get_raw_damage, get_damage_matrix. cbn [sim_damage sim_matrix]. split.
  - intros j L. rewrite !raw_columns. unfold damages.
    assert (NJ : forall (f : nat -> Q), nth j (map f (seq 0 n)) 0%Q = f j).
    { intros f. rewrite (nth_indep _ 0%Q (f 0%nat)) by (rewrite map_length, seq_length; exact L). rewrite map_nth, seq_nth by exact L. reflexivity. }
    rewrite !NJ, !map_app. apply qsum_app.
  - destruct a; [unfold damages; rewrite map_app; reflexivity|reflexivity].
Qed.

(** The rotation behind the instances has all their snapshot times. *)
Lemma rows_from xs : forall rows (es : list (Q * Q)) p,
  In p (map (fun y => per_instance (fst (fst y)) (snd (fst y)) (fst (snd y)) (snd (snd y))) (combine (combine xs rows) es)) ->
  exists x, In x xs /\ pd_id p = di_id x /\ pd_name p = sk_name (di_skill x).
Proof.
  intros rows es p I. apply in_map_iff in I as ([[x r] [e w]] & <- & I). exists x. split; [|split; reflexivity].
  apply in_combine_l in I. apply in_combine_l in I. exact I.
Qed.
Lemma report_traced b b' tk tk' qu' l st n sm ss u v s b2 b2' :
  reachable b -> get_skill_timing b = Ok b' -> get_damage_instances tk (b_queue b') = Ok (tk', qu', l) ->
  make_sim st l n sm ss u v = Ok s -> get_skill_timing b2 = Ok b2' -> b_queue b2' = b_queue b' ->
  exists ps, get_per_skill_damage s (Some b2) = Ok ps.
Proof.
  intros R H HD HM H2 EQ. destruct (make_inv _ _ _ _ _ _ _ _ HM) as (sim & rs & m & Ei & _ & _ & _ & ->).
  destruct (traces_back b b' tk tk' qu' l st sim b2 b2' R H HD Ei H2 EQ) as (r & Er & _).
  unfold add_damage_snapshots in Er. rewrite H2 in Er. cbn [bind] in Er.
  unfold get_per_skill_damage. rewrite H2. cbn [bind]. apply mapM_total. intros p I. unfold per_skill_rows in I. cbn [sim_base sim_expected sim_variance] in I.
  apply rows_from in I as (x & Ix & E1 & E2). apply mapM_forall2 in Er.
  assert (T : exists t, trace_back (snapshot_table (get_q (b_queue b2'))) x = Ok t).
  { clear - Er Ix. induction Er as [|y z ys zs E Er IH]; [destruct Ix|]. destruct Ix as [->|I]; [|apply IH, I]. apply bind_ok in E as (t & E & _). eauto. }
  destruct T as (t & T). unfold trace_back in T. unfold with_snapshot. rewrite E1, E2.
  destruct (zget (di_id x) _) as [[t' nm]|]; [|discriminate T]. destruct (String.eqb _ nm); [eauto|discriminate T].
Qed.

(** ** The best of k runs *)

Lemma max_ge m l : (m <= max_of m l)%Q.
Proof.
  revert m. induction l as [|a l IH]; intros m; cbn [max_of]; [lra|]. destruct (Qle_bool m a) eqn:E.
  - apply Qle_bool_iff in E. specialize (IH a). lra.
  - apply IH.
Qed.
Lemma max_ub m l y : In y l -> (y <= max_of m l)%Q.
Proof.
  revert m. induction l as [|a l IH]; intros m I; [destruct I|]. destruct I as [->|I]; cbn [max_of]; [|apply IH, I].
  destruct (Qle_bool m y) eqn:E; [apply max_ge|]. apply Qle_bool_false in E. pose proof (max_ge m l). lra.
Qed.
Lemma max_in m l : max_of m l = m \/ In (max_of m l) l.
Proof.
  revert m. induction l as [|a l IH]; intros m; cbn [max_of]; [left; reflexivity|]. destruct (Qle_bool m a).
  - destruct (IH a) as [E|I]; [right; left; symmetry; exact E|right; right; exact I].
  - destruct (IH m) as [E|I]; [left; exact E|right; right; exact I].
Qed.
Lemma best_spec x k pick r : best_of x k pick = Ok r ->
  x <> [] /\ (1 <= k)%nat /\ (forall i, (i < k)%nat -> nth (pick i) x 0 <= r)%Q /\ exists i, (i < k)%nat /\ r = nth (pick i) x 0%Q.
Proof.
  unfold best_of. destruct x as [|x0 xs]; [discriminate|]. destruct (chosen _ k pick) as [|c cs] eqn:C; [discriminate|]. intros [= <-].
  split; [discriminate|]. assert (L : List.length (c :: cs) = k) by (rewrite <- C; unfold chosen; rewrite map_length, seq_length; reflexivity).
  split; [cbn in L; lia|].
  assert (A : forall y, In y (c :: cs) <-> exists i, (i < k)%nat /\ y = nth (pick i) (x0 :: xs) 0%Q).
  { intros y. rewrite <- C. unfold chosen. rewrite in_map_iff. split.
    - intros (i & <- & I). apply in_seq in I. exists i. split; [lia|reflexivity].
    - intros (i & I & ->). exists i. split; [reflexivity|]. apply in_seq. lia. }
  split.
  - intros i I. destruct (proj2 (A _) (ex_intro _ i (conj I eq_refl))) as [->|J]; [apply max_ge|apply max_ub, J].
  - apply A. destruct (max_in c cs) as [E|I]; [left; symmetry; exact E|right; exact I].
Qed.
Lemma best_ok x k pick : x <> [] -> (1 <= k)%nat -> exists r, best_of x k pick = Ok r.
Proof.
  intros X K. unfold best_of. destruct x as [|x0 xs]; [congruence|]. destruct (chosen _ k pick) as [|c cs] eqn:C; [|eauto].
  apply (f_equal (@List.length Q)) in C. unfold chosen in C. rewrite map_length, seq_length in C. cbn in C. lia.
Qed.
Lemma best_none x k pick : x = [] \/ k = 0%nat -> best_of x k pick = Err ValueError.
Proof. intros [->| ->]; [reflexivity|]. unfold best_of, chosen. cbn. destruct x; reflexivity. Qed.
Lemma expected_inv x k tr pick r : expected_max_in_k_runs x k tr pick = Ok r ->
  exists l, Forall2 (fun i b => best_of x k (pick i) = Ok b) (seq 0 tr) l /\ (1 <= tr)%nat /\ r = (qsum l / inject_Z (Z.of_nat tr))%Q.
Proof.
  unfold expected_max_in_k_runs. intros H. apply bind_ok in H as (l & E & H). apply mapM_forall2 in E. exists l. split; [exact E|].
  apply F2_length in E. rewrite seq_length in E. destruct l as [|a l]; [discriminate H|]. injection H as <-. cbn in E. split; [lia|]. reflexivity.
Qed.
Lemma qsum_between lo hi l : (forall y, In y l -> lo <= y <= hi)%Q ->
  (lo * inject_Z (Z.of_nat (List.length l)) <= qsum l <= hi * inject_Z (Z.of_nat (List.length l)))%Q.
Proof.
  unfold qsum. induction l as [|a l IH]; intros H; cbn [List.length fold_right]; [change (inject_Z (Z.of_nat 0)) with 0%Q; lra|].
  rewrite Nat2Z.inj_succ. unfold Z.succ. rewrite inject_Z_plus. pose proof (H a (or_introl eq_refl)).
  destruct IH as [A B]; [intros y I; apply H; right; exact I|]. change (inject_Z 1) with 1%Q. split; lra.
Qed.
Lemma count_pos tr : (1 <= tr)%nat -> (0 < inject_Z (Z.of_nat tr))%Q.
Proof. intros H. change 0%Q with (inject_Z 0). rewrite <- Zlt_Qlt. lia. Qed.
Lemma F2_out {A B} (R : A -> B -> Prop) l l' y : Forall2 R l l' -> In y l' -> exists x, In x l /\ R x y.
Proof. induction 1 as [|a b l l' H F IH]; [intros []|]. intros [<-|I]; [exists a; split; [left; reflexivity|exact H]|]. destruct (IH I) as (x & J & K). exists x. split; [right; exact J|exact K]. Qed.

Lemma runs_total x k tr pick : x <> [] -> (1 <= k)%nat -> (1 <= tr)%nat -> exists r, expected_max_in_k_runs x k tr pick = Ok r.
Proof.
  intros X K T. unfold expected_max_in_k_runs. destruct (mapM_total (fun i => best_of x k (pick i)) (seq 0 tr)) as (l & E); [intros i _; apply best_ok; assumption|].
  rewrite E. cbn [bind]. apply mapM_ok_length in E. rewrite seq_length in E. destruct l; [cbn in E; lia|eauto].
Qed.
Lemma runs_none x k tr pick : (1 <= tr)%nat -> x = [] \/ k = 0%nat -> expected_max_in_k_runs x k tr pick = Err ValueError.
Proof.
  intros T H. unfold expected_max_in_k_runs. destruct tr as [|tr]; [lia|]. cbn [seq mapM]. rewrite best_none by exact H. reflexivity.
Qed.
Lemma runs_between x k tr pick r lo hi : valid_picks x pick -> expected_max_in_k_runs x k tr pick = Ok r ->
  (forall y, In y x -> lo <= y <= hi)%Q -> (lo <= r <= hi)%Q.
Proof.
  intros V H B. apply expected_inv in H as (l & F & T & ->). pose proof (count_pos tr T) as P.
  destruct (qsum_between lo hi l) as [A C].
  - intros y I. destruct (F2_out _ _ _ _ F I) as (i & _ & E). apply best_spec in E as (_ & _ & _ & j & _ & ->). apply B, nth_In, V.
  - apply F2_length in F. rewrite seq_length in F. rewrite <- F in A, C.
    split; [apply Qle_shift_div_l; assumption|apply Qle_shift_div_r; assumption].
Qed.
Lemma runs_mono x x' k k' tr pick r r' : Forall2 Qle x x' -> (k <= k')%nat -> expected_max_in_k_runs x k tr pick = Ok r ->
  expected_max_in_k_runs x' k' tr pick = Ok r' -> (r <= r')%Q.
Proof.
  intros X K H H'. apply expected_inv in H as (l & F & T & ->). apply expected_inv in H' as (l' & F' & _ & ->). pose proof (count_pos tr T) as P.
  assert (N : forall i, (nth i x 0 <= nth i x' 0)%Q).
  { clear - X. induction X as [|a b x x' E X IH]; intros [|i]; cbn; try lra; auto. }
  assert (S : (qsum l <= qsum l')%Q).
  { clear - F F' N K. unfold qsum. revert l' F'. induction F as [|i b s l E F IH]; intros l' F'; inversion F' as [|? b' ? m E' F'']; subst; cbn [fold_right]; [lra|].
    specialize (IH _ F''). apply best_spec in E as (_ & _ & _ & j & J & ->). apply best_spec in E' as (_ & _ & U & _). specialize (U j ltac:(lia)). specialize (N (pick i j)). lra. }
  unfold Qdiv. apply Qmult_le_compat_r; [exact S|]. apply Qinv_le_0_compat. lra.
Qed.
(** Trials in which everything is drawn. *)
Lemma runs_max x k tr pick r top : expected_max_in_k_runs x k tr pick = Ok r -> valid_picks x pick ->
  (forall y, In y x -> y <= top)%Q -> (forall i, (i < tr)%nat -> exists j, (j < k)%nat /\ (nth (pick i j) x 0 == top)%Q) -> (r == top)%Q.
Proof.
  intros H V U A. apply expected_inv in H as (l & F & T & ->). pose proof (count_pos tr T) as P.
  destruct (qsum_between top top l) as [B C].
  - intros y I. destruct (F2_out _ _ _ _ F I) as (i & J & E). apply in_seq in J. apply best_spec in E as (_ & _ & M & j & _ & ->).
    destruct (A i ltac:(lia)) as (j' & J' & E'). specialize (M j' J'). split; [lra|]. apply U, nth_In, V.
  - apply F2_length in F. rewrite seq_length in F. rewrite <- F in B, C. apply Qle_antisym; [apply Qle_shift_div_r; assumption|apply Qle_shift_div_l; assumption].
Qed.
Lemma runs_mean x k tr pick r : expected_max_in_k_runs x k tr pick = Ok r ->
  exists bests, List.length bests = tr /\ (r * inject_Z (Z.of_nat tr) == sum bests)%Q
    /\ forall i best, nth_error bests i = Some best ->
         (forall j, (j < k)%nat -> nth (pick i j) x 0 <= best)%Q /\ exists j, (j < k)%nat /\ best = nth (pick i j) x 0%Q.
Proof.
  intros H. apply expected_inv in H as (l & F & T & ->). pose proof (count_pos tr T) as P. exists l.
  pose proof (F2_length _ _ _ F) as L. rewrite seq_length in L. split; [congruence|]. split; [unfold sum, qsum; field; lra|].
  intros i best E. assert (I : nth_error (seq 0 tr) i = Some i).
  { rewrite (nth_error_nth' _ 0%nat) by (rewrite seq_length, L; apply nth_error_Some; congruence). rewrite seq_nth; [reflexivity|].
    rewrite L. apply nth_error_Some. congruence. }
  assert (B : best_of x k (pick i) = Ok best).
  { clear - F E I. remember i as i0 in I at 2 |- *. clear Heqi0. revert i E I. induction F as [|a b s l E0 F IH]; intros [|i] E I; try discriminate E.
    - cbn in E, I. congruence.
    - cbn in E, I. apply (IH i E I). }
  apply best_spec in B as (_ & _ & A & B). auto.
Qed.

Lemma dps_not_shared : exists st l1 l2 s s1 s2 d, make_sim st (l1 ++ l2)%list 1 false false half_draws half_draws = Ok s
  /\ make_sim st l1 1 false false half_draws half_draws = Ok s1 /\ make_sim st l2 1 false false half_draws half_draws = Ok s2
  /\ get_dps s1 = [None] /\ get_dps s2 = [None] /\ get_dps s = [Some d].
Proof.
  exists (gx_stats (gx 3330)), [gx_inst 500 Fixtures.fx_hit], [gx_inst 3000 Fixtures.fx_ogcd]. do 4 eexists.
  split; [vm_compute; reflexivity|]. split; [vm_compute; reflexivity|]. split; [vm_compute; reflexivity|].
  split; [vm_compute; reflexivity|]. split; [vm_compute; reflexivity|]. vm_compute. reflexivity.
Qed.
