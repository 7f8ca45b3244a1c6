(** * Kills that come no later (C89) *)

From Coq Require Import ZArith QArith List String Bool Permutation Lia Lqa FinFun.
From Verif Require Import Base BaseFacts Float Strings Types Lookup Stats Library Events Rotation DamageBuild Damage KillTime GameLib SpecHit SpecKill SpecGear SpecGame SpecPlay SpecRun SpecTimeline SpecLater SpecReplay SpecShuffle SpecAuto SpecIdle SpecCause
  SpecBuff SpecStrike SpecReport SpecAid KillFacts HitProps GearDamage GearProps SaneFacts ReportFacts SimFacts SettingsFacts BuffDamage BuffProps BuffGame StrikeAuto StrikeTimed StrikeGame LbFacts IdleFacts IdleGame TargetCase SpecReport ReportFacts.
Import ListNotations.
Open Scope string_scope.
Open Scope Z_scope.

(** ** Rows: all those of [l], raised, and others *)

Definition rows_more (l l' : list (Z * list Q)) : Prop := exists rest m, Permutation l' (rest ++ m) /\ Forall2 rows_up l m.

Lemma qsum_nonneg l : (forall x, In x l -> 0 <= x)%Q -> (0 <= qsum l)%Q.
Proof. induction l as [|a l IH]; intros H; [apply Qle_refl|]. change (0 <= a + qsum l)%Q. assert (0 <= a)%Q by (apply H; left; reflexivity). assert (0 <= qsum l)%Q by (apply IH; intros x I; apply H; right; exact I). lra. Qed.
Lemma dealt_nonneg j t l : cells_nonneg l -> (0 <= dealt_by j t l)%Q.
Proof.
  intros N. unfold dealt_by. apply qsum_nonneg. intros x I. apply in_map_iff in I as (r & <- & I). apply filter_In in I as (I & _). apply (cell_nonneg _ _ _ N I).
Qed.
Lemma dealt_app j t l m : (dealt_by j t (l ++ m)%list == dealt_by j t l + dealt_by j t m)%Q.
Proof. unfold dealt_by. rewrite filter_app, map_app. apply qsum_app. Qed.
Lemma dealt_more j t l l' : cells_nonneg l' -> rows_more l l' -> (dealt_by j t l <= dealt_by j t l')%Q.
Proof.
  intros N (rest & m & P & F). rewrite (dealt_perm j t _ _ P), dealt_app. pose proof (dealt_up j t _ _ F).
  assert (0 <= dealt_by j t rest)%Q; [|lra]. apply dealt_nonneg. intros r x I. apply N. apply (Permutation_in _ (Permutation_sym P)), in_app_iff. auto.
Qed.
Lemma times_more l l' t : rows_more l l' -> In t (map fst l) -> In t (map fst l').
Proof.
  intros (rest & m & P & F) I. apply (Permutation_in _ (Permutation_sym (Permutation_map fst P))). rewrite map_app. apply in_app_iff. right. rewrite (times_up _ _ F). exact I.
Qed.
Lemma fates_more hp rows rows' n deaths deaths' : cells_nonneg rows' -> rows_more rows rows' -> fates hp rows n deaths -> fates hp rows' n deaths' ->
  Forall2 not_earlier deaths' deaths.
Proof.
  intros N U (E & F) (E' & F'). rewrite <- E in E'. clear E n.
  assert (G : forall j o o', nth_error deaths j = Some o -> nth_error deaths' j = Some o' -> not_earlier o' o).
  { intros j o o' H H'. specialize (F j o H). specialize (F' j o' H'). destruct o as [t|], o' as [t'|]; cbn in *; auto.
    - destruct F as (I & C & _). destruct F' as (_ & _ & B'). apply (times_more _ _ _ U) in I. destruct (Z_le_gt_dec t' t) as [K|K]; [exact K|].
      specialize (B' t I ltac:(lia)). pose proof (dealt_more j t _ _ N U). lra.
    - destruct F as (I & C & _). apply (times_more _ _ _ U) in I. specialize (F' t I). pose proof (dealt_more j t _ _ N U). lra. }
  clear F F' U N. revert deaths' E' G. induction deaths as [|o l IH]; intros [|o' l'] E G; try discriminate; constructor.
  - apply (G 0%nat); reflexivity.
  - apply IH; [injection E; auto|]. intros j. apply (G (Datatypes.S j)).
Qed.
Lemma more_app l1 l1' l2 l2' : rows_more l1 l1' -> rows_more l2 l2' -> rows_more (l1 ++ l2) (l1' ++ l2').
Proof.
  intros (r1 & m1 & P1 & F1) (r2 & m2 & P2 & F2). exists (r1 ++ r2)%list, (m1 ++ m2)%list. split; [|apply Forall2_app; assumption].
  rewrite P1, P2. rewrite <- !app_assoc. apply Permutation_app_head. rewrite !app_assoc. apply Permutation_app_tail, Permutation_app_comm.
Qed.

(** ** From indices to permutations *)

Lemma nodup_join {A} (l m : list A) : NoDup l -> NoDup m -> (forall x, In x l -> In x m -> False) -> NoDup (l ++ m).
Proof.
  induction l as [|a l IH]; intros D D' H; [exact D'|]. inversion D; subst. cbn. constructor; [|apply IH; [assumption|exact D'|]; intros x I; apply H; right; exact I].
  rewrite in_app_iff. intros [I|I]; [contradiction|]. apply (H a); [left; reflexivity|exact I].
Qed.
Lemma picked (l L : list nat) : NoDup l -> NoDup L -> incl l L -> exists r, Permutation L (r ++ l).
Proof.
  intros D D' I. exists (filter (fun x => if in_dec Nat.eq_dec x l then false else true) L). apply NoDup_Permutation.
  - exact D'.
  - apply nodup_join; [apply NoDup_filter, D'|exact D|]. intros x X Y. apply filter_In in X as (_ & X). destruct (in_dec Nat.eq_dec x l); [discriminate|contradiction].
  - intros x. rewrite in_app_iff, filter_In. destruct (in_dec Nat.eq_dec x l) as [Y|Y].
    + split; [intros _; right; exact Y|intros _; apply I, Y].
    + split; [intros X; left; split; [exact X|reflexivity]|]. intros [(X & _)|X]; [exact X|contradiction].
Qed.
Lemma index_map {A} (d : A) (l : list A) : map (fun i => nth i l d) (seq 0 (List.length l)) = l.
Proof.
  induction l as [|a l IH]; [reflexivity|]. cbn [List.length seq map nth]. f_equal. rewrite <- seq_shift, map_map. exact IH.
Qed.
Lemma index_more (l l' : list (Z * list Q)) f : (forall i j, f i = f j -> i = j) ->
  (forall i x, nth_error l i = Some x -> exists x', nth_error l' (f i) = Some x' /\ rows_up x x') -> rows_more l l'.
Proof.
  intros J R. set (d := (0, []) : Z * list Q). destruct (picked (map f (seq 0 (List.length l))) (seq 0 (List.length l'))) as (r & P).
  - apply Injective_map_NoDup; [exact J|apply seq_NoDup].
  - apply seq_NoDup.
  - intros k I. apply in_map_iff in I as (i & <- & I). apply in_seq in I as (_ & I). destruct (nth_error l i) as [x|] eqn:E; [|apply nth_error_None in E; lia].
    destruct (R i x E) as (x' & E' & _). apply in_seq. assert (f i < List.length l')%nat by (apply nth_error_Some; congruence). lia.
  - exists (map (fun i => nth i l' d) r), (map (fun i => nth (f i) l' d) (seq 0 (List.length l))). split.
    + apply (Permutation_map (fun i => nth i l' d)) in P. rewrite index_map in P. rewrite map_app, map_map in P. exact P.
    + assert (K : forall n k, (forall i, (i < n)%nat -> exists x, nth_error l (k + i) = Some x) ->
        Forall2 rows_up (map (fun i => nth i l d) (seq k n)) (map (fun i => nth (f i) l' d) (seq k n))).
      { induction n as [|n IH]; intros k H; [constructor|]. cbn [seq map]. constructor.
        - destruct (H 0%nat) as (x & E); [lia|]. rewrite Nat.add_0_r in E. destruct (R k x E) as (x' & E' & U).
          rewrite (nth_error_nth _ _ _ E), (nth_error_nth _ _ _ E'). exact U.
        - apply IH. intros i I. destruct (H (Datatypes.S i)) as (x & E); [lia|]. exists x. rewrite <- E. f_equal. lia. }
      specialize (K (List.length l) 0%nat). rewrite index_map in K. apply K. intros i I. cbn. destruct (nth_error l i) as [x|] eqn:E; [eauto|]. apply nth_error_None in E. lia.
Qed.

(** ** The rows of one rotation *)

Lemma row_cells n b u b' rows : rotation_rows n b u = Ok (b', rows) ->
  exists hits, run_hits b hits /\ List.length rows = List.length (sort_by di_time hits)
    /\ forall i x, nth_error (sort_by di_time hits) i = Some x -> exists cells r, nth_error rows i = Some (di_time x, cells) /\ row_of (b_stats b) x = Ok r
         /\ lb_row n (rd_lb u i) (sk_name (di_skill x)) (sm_cond (di_modifier x)) (map (fun j => fst (fst (sample_cell r (rd_sample u i j)))) (seq 0 n)) = Ok cells.
Proof.
  intros H. unfold rotation_rows in H.
  apply bind_ok in H as (tk & Et & H). apply bind_ok in H as (b1 & Eb & H). apply bind_ok in H as ([[tk' qu'] insts] & Ei & H).
  apply bind_ok in H as (sim & Es & H). apply bind_ok in H as (rp & Er & H). apply bind_ok in H as (m & Em & H).
  apply bind_ok in H as (rs & Ers & H). injection H as <- <-.
  destruct (sim_rows _ _ _ Es) as (Ss & _ & _ & R). destruct (cells_at _ _ _ _ Em) as (Lm & K). destruct (mapM_i_nth _ _ _ _ Ers) as (L & N).
  exists insts. rewrite <- Ss. split; [exists tk, b1, tk', qu'; auto|].
  split. { rewrite L, combine_length, Lm. assert (E : List.length (ds_instances sim) = List.length (dt_rows (ds_tracker sim))) by (clear - R; induction R; cbn; congruence). lia. }
  intros i x E. destruct (sim_row_at _ _ _ _ _ Es E) as (row & Erow & Hrow).
  destruct (N i _ (nth_combine _ _ i x _ E (K i row Erow))) as (y & Y1 & Y2). cbn [Nat.add] in Y2. apply bind_ok in Y2 as (cells & El & Y2). injection Y2 as <-.
  exists cells, row. split; [exact Y1|]. split; [exact Hrow|]. rewrite map_map in El. exact El.
Qed.
Lemma run_hits_one b l l' : run_hits b l -> run_hits b l' -> l' = l.
Proof. intros (tk & r & tk' & qu & A & B & C) (tk2 & r2 & tk2' & qu2 & A' & B' & C'). congruence. Qed.
Lemma sane_in_order l xs x i : in_time_order l xs -> Forall sane_hit l -> nth_error xs i = Some x -> sane_hit x.
Proof. intros (P & _) F E. rewrite Forall_forall in F. apply F, (Permutation_in _ (Permutation_sym P)), (nth_error_In _ _ E). Qed.

Lemma aided_rows f n b b' u u' c rows c' rows' : aided_by f b b' -> same_luck f u u' -> draws_ok u -> draws_ok u' ->
  rotation_rows n b u = Ok (c, rows) -> rotation_rows n b' u' = Ok (c', rows') ->
  rows_more rows rows' /\ cells_nonneg rows /\ cells_nonneg rows'.
Proof.
  intros (Es & (g & Ng & Sg) & hits & hits' & xs & xs' & H & H' & F & F' & O & O' & (J & P)) Lk D D' R R'.
  assert (NN : forall b0 hs, run_hits b0 hs -> Forall sane_hit hs -> hits_nonneg b0).
  { intros b0 hs Hs Fs tk r tk' qu insts E1 E2 E3. assert (insts = hs) as -> by (apply (run_hits_one b0); [exact Hs|]; exists tk, r, tk', qu; auto).
    apply Forall_impl with sane_hit; [intros x Y; apply Y|exact Fs]. }
  split; [|split].
  - destruct (row_cells _ _ _ _ _ R) as (h1 & H1 & L1 & K1). destruct (row_cells _ _ _ _ _ R') as (h1' & H1' & L1' & K1').
    rewrite (run_hits_one _ _ _ H H1) in *. rewrite (run_hits_one _ _ _ H' H1') in *. clear h1 h1' H1 H1'.
    rewrite <- (order_unique _ _ O) in *. rewrite <- (order_unique _ _ O') in *.
    apply (index_more rows rows' f J). intros i [t cs] E.
    destruct (nth_error xs i) as [x|] eqn:Ex. 2:{ apply nth_error_None in Ex. assert (i < List.length rows)%nat by (apply nth_error_Some; congruence). lia. }
    destruct (K1 i x Ex) as (cells & row & Y1 & Y2 & Y3). rewrite E in Y1. injection Y1 as -> ->.
    destruct (P i x Ex) as (x' & Ex' & Bo). destruct (K1' _ _ Ex') as (cells' & row' & Y1' & Y2' & Y3'). exists (di_time x', cells'). split; [exact Y1'|].
    pose proof Bo as (T & Sk & Md & _). split; [exact T|]. cbn [snd].
    destruct (boosted_damage g _ x x' row Ng Sg (sane_in_order _ _ _ _ O F Ex) Bo Y2) as (row2 & Y4 & Up).
    rewrite Es in Y2'. rewrite Y4 in Y2'. injection Y2' as ->. unfold lb_row in Y3, Y3'. rewrite Sk, Md in Y3'.
    destruct (contains "LB" (sk_name (di_skill x))).
    + assert (Q : forall (a b : nat -> Q), (forall j, a j = b j) -> get_lb_damage (join "," (sm_cond (di_modifier x))) n a = get_lb_damage (join "," (sm_cond (di_modifier x))) n b).
      { intros a a' Ea. unfold get_lb_damage. destruct (search_label "Mean Damage:" (join "," (sm_cond (di_modifier x)))), (search_label "Exact Damage:" (join "," (sm_cond (di_modifier x)))); try reflexivity; f_equal; apply map_ext; intros j; rewrite Ea; reflexivity. }
      rewrite (Q (rd_lb u' (f i)) (rd_lb u i) (fun j => proj2 (Lk i j))) in Y3'. rewrite Y3 in Y3'. injection Y3' as <-. clear. induction cells; constructor; [apply Qle_refl|assumption].
    + injection Y3 as <-. injection Y3' as <-. apply map_F2. intros j. rewrite (proj1 (Lk i j)). apply Up, D.
  - apply (rotation_cells_nonneg n b u c rows g Sg); [apply Ng|exact (NN _ _ H F)|exact D|exact R].
  - rewrite <- Es in Sg. apply (rotation_cells_nonneg n b' u' c' rows' g Sg); [apply Ng|exact (NN _ _ H' F')|exact D'|exact R'].
Qed.

(** ** Kill times *)

Theorem aided_kills hp rots rots' n argsort ks ks' : sorts argsort -> Forall2 aided rots rots' ->
  Forall (fun bu => draws_ok (snd bu)) rots -> Forall (fun bu => draws_ok (snd bu)) rots' ->
  estimate_kill_time hp rots n argsort = Ok ks -> estimate_kill_time hp rots' n argsort = Ok ks' ->
  exists deaths deaths', ks = reported deaths /\ ks' = reported deaths' /\ Forall2 not_earlier deaths' deaths.
Proof.
  intros A R D D' H H'. destruct (estimate_fates _ _ _ _ _ A H) as (parts & P & K). destruct (estimate_fates _ _ _ _ _ A H') as (parts' & P' & K').
  assert (M : rows_more (List.concat (map snd parts)) (List.concat (map snd parts')) /\ cells_nonneg (List.concat (map snd parts)) /\ cells_nonneg (List.concat (map snd parts'))).
  { clear H H' K K'. revert parts parts' P P'. induction R as [|[b u] [b' u'] l l' (f & Ai & Lk) _ IH]; intros parts parts' P P'; inversion P; inversion P'; subst; cbn [map List.concat].
    - repeat split; try (intros ? ? []). exists [], []. split; [apply perm_nil|constructor].
    - inversion D; inversion D'; subst. destruct y as [c rows], y0 as [c' rows']. cbn [fst snd] in *.
      destruct (aided_rows f n b b' u u' c rows c' rows') as (M1 & M2 & M3); auto.
      match goal with V : Forall2 _ l ?ps, V' : Forall2 _ l' ?ps' |- _ => destruct (IH ltac:(assumption) ltac:(assumption) ps ps' V V') as (M4 & M5 & M6) end.
      split; [apply more_app; assumption|]. split; intros r x I; apply in_app_iff in I as [I|I]; eauto. }
  destruct M as (M & N & N'). destruct (K N) as (d & F & ->). destruct (K' N') as (d' & F' & ->). exists d, d'. split; [reflexivity|]. split; [reflexivity|].
  exact (fates_more hp _ _ n d d' N' M F F').
Qed.

(** ** Which rotations are aided *)

Lemma pair_up own a a' l l' xs xs' : Permutation l a -> Permutation l' (own ++ a') -> Forall2 boosted_hit a a' -> in_time_order l xs -> in_time_order l' xs' ->
  exists f, paired f xs xs'.
Proof.
  intros P P' F (O & _) (O' & _).
  assert (Q : Permutation a xs) by (rewrite <- P; exact O). assert (Q' : Permutation xs' (own ++ a')) by (rewrite <- O'; exact P').
  apply Permutation_nth_error in Q as (_ & p & Jp & Ep). apply Permutation_nth_error in Q' as (_ & r & Jr & Er).
  exists (fun i => r (List.length own + p i)%nat). split.
  - intros i j E. apply Jr in E. apply Jp. lia.
  - intros i x E. rewrite Ep in E. rewrite <- Er. rewrite nth_error_app2 by lia. replace (List.length own + p i - List.length own)%nat with (p i) by lia.
    pose proof (nth_F2 _ _ _ (p i) F) as K. rewrite E in K. destruct (nth_error a' (p i)) as [x'|]; [eauto|contradiction].
Qed.

Lemma ran_hits st lib snap au ig fs w target l b hits : rotation_with st lib snap au ig fs w target l = Ok b -> hits_with st lib snap au ig fs w target l = Ok hits ->
  b_stats b = st /\ b_library b = lib /\ run_hits b hits.
Proof.
  unfold rotation_with, hits_with. intros R H. apply bind_ok in R as (b0 & B0 & F). rewrite B0 in H. cbn [bind] in H. rewrite F in H. cbn [bind] in H.
  destruct (init_keeps _ _ _ _ _ _ _ _ _ B0) as (K1 & K2 & _). destruct (follow_keeps _ _ _ F) as (L1 & L2 & _).
  assert (E1 : b_stats b = st) by congruence. assert (E2 : b_library b = lib) by congruence. split; [exact E1|]. split; [exact E2|].
  apply bind_ok in H as (r & Hr & H). apply bind_ok in H as (tk & N & H). apply bind_ok in H as ([[tk1 q1] o] & A & H). injection H as <-.
  exists tk, r, tk1, q1. rewrite E1, E2. auto.
Qed.

Lemma aid st lib g snap au ig fs w target l b hits snap' au' ig' fs' w' target' l' b' hits' own a a' :
  sane_library lib -> gear_nonneg g -> stats_of g = Ok st ->
  rotation_with st lib snap au ig fs w target l = Ok b -> hits_with st lib snap au ig fs w target l = Ok hits ->
  rotation_with st lib snap' au' ig' fs' w' target' l' = Ok b' -> hits_with st lib snap' au' ig' fs' w' target' l' = Ok hits' ->
  Permutation hits a -> Permutation hits' (own ++ a') -> Forall2 boosted_hit a a' -> exists f, aided_by f b b'.
Proof.
  intros L N S R H R' H' P P' F. destruct (ran_hits _ _ _ _ _ _ _ _ _ _ _ R H) as (E1 & _ & Rn). destruct (ran_hits _ _ _ _ _ _ _ _ _ _ _ R' H') as (E1' & _ & Rn').
  destruct (pair_up own a a' hits hits' _ _ P P' F (sorted_in_order hits) (sorted_in_order hits')) as (f & Pf). exists f. split; [congruence|]. split; [exists g; rewrite E1; auto|].
  exists hits, hits', (sort_by di_time hits), (sort_by di_time hits'). split; [exact Rn|]. split; [exact Rn'|].
  split; [exact (hits_sane lib L st snap au ig fs w target l hits H)|]. split; [exact (hits_sane lib L st snap' au' ig' fs' w' target' l' hits' H')|].
  split; [apply sorted_in_order|]. split; [apply sorted_in_order|exact Pf].
Qed.

Lemma same_boosted x x' : unnumbered x' = unnumbered x -> boosted_hit x x'.
Proof.
  unfold unnumbered. intros E. injection E as E1 E2 E3 E4 E5. unfold boosted_hit. rewrite E4. repeat split; try assumption; apply Qle_refl.
Qed.
Lemma further_boosted own l l' : Permutation (map unnumbered l') (map unnumbered (own ++ l)) ->
  exists own' a', Permutation l' (own' ++ a') /\ Forall2 boosted_hit l a'.
Proof.
  intros P. apply Permutation_sym, Permutation_map_inv in P as (l1 & E & P). rewrite map_app in E. symmetry in E. apply map_eq_app in E as (o & m & -> & E1 & E2).
  exists o, m. split; [exact P|]. clear - E2. revert m E2. induction l as [|x l IH]; intros [|y m] E; try discriminate; constructor.
  - apply same_boosted. exact (f_equal (hd (unnumbered x)) E).
  - apply IH. exact (f_equal (@tl instance) E).
Qed.

Theorem buffs_aid extra g st lib snap start w target b0 l b r hits hits' b1 :
  sane_library lib -> gear_nonneg g -> stats_of g = Ok st ->
  rb_init st lib snap false false start w target = Ok b0 -> follow b0 l = Ok b -> with_support extra b -> distinct_times b ->
  get_skill_timing b = Ok r -> Forall orderly (timeline r) -> distinct_places (timeline r) ->
  hits_with st lib snap false false start w target (unsupported extra b0 l) = Ok hits ->
  hits_with st lib snap false false start w target l = Ok hits' ->
  follow b0 (unsupported extra b0 l) = Ok b1 -> exists f, aided_by f b1 b.
Proof.
  intros L N S B0 F W D H O P G G' F1. destruct (support_hits _ _ _ _ _ _ _ _ _ _ _ _ _ B0 F W D H O P G G') as (a & a' & A & A' & B).
  refine (aid st lib g snap false false start w target _ b1 hits snap false false start w target l b hits' [] a a' L N S _ G _ G' A A' B); unfold rotation_with; rewrite B0; assumption.
Qed.
Theorem attacks_aid g st lib snap au au' ig fs w target l l' b b' hits hits' own :
  sane_library lib -> gear_nonneg g -> stats_of g = Ok st ->
  rotation_with st lib snap au ig fs w target l = Ok b -> hits_with st lib snap au ig fs w target l = Ok hits ->
  rotation_with st lib snap au' ig fs w target l' = Ok b' -> hits_with st lib snap au' ig fs w target l' = Ok hits' ->
  Permutation (map unnumbered hits') (map unnumbered (own ++ hits)) -> exists f, aided_by f b b'.
Proof.
  intros L N S R H R' H' P. destruct (further_boosted _ _ _ P) as (own' & a' & Q & F).
  exact (aid st lib g snap au ig fs w target l b hits snap au' ig fs w target l' b' hits' own' hits a' L N S R H R' H' (Permutation_refl _) Q F).
Qed.

Theorem shipped_buffs_aid v lv extra g st lib snap start w target b0 l b r hits hits' b1 :
  create_skill_library v lv = Ok lib -> gear_nonneg g -> stats_of g = Ok st -> (forall n, extra n = true -> In n shipped_buffs) ->
  rb_init st lib snap false false start w target = Ok b0 -> follow b0 l = Ok b -> (forall x, In x (b_sequence b) -> extra (sk_name (sq_skill x)) = false) -> distinct_times b ->
  get_skill_timing b = Ok r -> Forall orderly (timeline r) -> distinct_places (timeline r) ->
  hits_with st lib snap false false start w target (unsupported extra b0 l) = Ok hits ->
  hits_with st lib snap false false start w target l = Ok hits' ->
  follow b0 (unsupported extra b0 l) = Ok b1 -> exists f, aided_by f b1 b.
Proof.
  intros C N S X B0 F Q D H O P. refine (buffs_aid extra g st lib snap start w target b0 l b r hits hits' b1 (shipped_sane v lv lib C) N S B0 F _ D H O P).
  pose proof (built_init _ _ _ _ _ _ _ _ _ B0) as Bt. pose proof (follow_built _ _ _ Bt F) as B. apply (shipped_with_support v lv extra b); [|exact B|exact X|exact Q].
  rewrite (follow_library _ _ _ F). unfold rb_init in B0. apply bind_ok in B0 as (pr & _ & B0). injection B0 as <-. exact C.
Qed.
Theorem shipped_autos_aid v lv g st lib snap trailing start w target b0 l b r hits hits' b' :
  create_skill_library v lv = Ok lib -> gear_nonneg g -> stats_of g = Ok st -> (1 <= st_weapon_delay st)%Q ->
  rb_init st lib snap false trailing start w target = Ok b0 -> follow b0 l = Ok b ->
  get_skill_timing b = Ok r -> Forall orderly (timeline r) -> distinct_places (timeline r) ->
  hits_with st lib snap false trailing start w target l = Ok hits ->
  hits_with st lib snap true trailing start w target l = Ok hits' ->
  rotation_with st lib snap true trailing start w target l = Ok b' -> exists f, aided_by f b b'.
Proof.
  intros C N S W B0 F H O D G G' R'. destruct (shipped_autos_keep_hits v lv g st lib snap trailing start w target b0 l b r hits hits' C S W B0 F H O D G G') as (own & P & _).
  refine (attacks_aid g st lib snap false true trailing start w target l l b b' hits hits' own (shipped_sane v lv lib C) N S _ G R' G' P). unfold rotation_with. rewrite B0. exact F.
Qed.
