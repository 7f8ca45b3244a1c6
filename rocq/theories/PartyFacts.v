(** * Who is in an estimate (C90) *)

From Coq Require Import ZArith QArith List String Bool Permutation Lia Lqa.
From Verif Require Import Base BaseFacts Float Strings Types Lookup Stats Library Events Rotation DamageBuild Damage KillTime SpecHit SpecKill SpecGear SpecReport SpecAid KillFacts HitProps GearDamage SimFacts SpecShuffle ReportFacts LbFacts SettingsFacts GearProps StrikeAuto AidFacts SpecReport SpecParty.
Import ListNotations.
Open Scope string_scope.
Open Scope Z_scope.

Lemma sound_nonneg n rots parts : Forall sound_play rots -> Forall2 (fun bu p => rotation_rows n (fst bu) (snd bu) = Ok p) rots parts -> cells_nonneg (List.concat (map snd parts)).
Proof. intros S F. exact (kill_cells_nonneg n rots parts F S). Qed.

Lemma rows_unique n rots parts parts' : Forall2 (fun bu p => rotation_rows n (fst bu) (snd bu) = Ok p) rots parts ->
  Forall2 (fun bu p => rotation_rows n (fst bu) (snd bu) = Ok p) rots parts' -> parts' = parts.
Proof.
  intros F. revert parts'. induction F as [|bu p l l' E _ IH]; intros parts' F'; inversion F'; subst; [reflexivity|]. f_equal; [congruence|apply IH; assumption].
Qed.
Lemma rows_perm n rots rots' parts parts' : Permutation rots rots' ->
  Forall2 (fun bu p => rotation_rows n (fst bu) (snd bu) = Ok p) rots parts -> Forall2 (fun bu p => rotation_rows n (fst bu) (snd bu) = Ok p) rots' parts' ->
  Permutation parts parts'.
Proof.
  intros P. revert parts parts'. induction P as [|x l l' P IH|x y l|l l' l'' P IH P' IH']; intros parts parts' F F'.
  - inversion F; inversion F'; subst. apply perm_nil.
  - inversion F; inversion F'; subst. assert (y0 = y) as -> by congruence. apply perm_skip, IH; assumption.
  - inversion F as [|? ? ? ? E1 F1]; subst. inversion F1 as [|? ? ? ? E2 F2]; subst. inversion F' as [|? ? ? ? E3 F3]; subst. inversion F3 as [|? ? ? ? E4 F4]; subst.
    rewrite E1 in E4. rewrite E2 in E3. injection E3 as <-. injection E4 as <-. rewrite (rows_unique _ _ _ _ F2 F4). apply perm_swap.
  - assert (M : exists p, Forall2 (fun bu p => rotation_rows n (fst bu) (snd bu) = Ok p) l' p).
    { clear - F P. revert parts F. induction P as [|x l l' P IH|x y l|l l' l'' P IH P' IH']; intros parts F.
      - exists []. constructor.
      - inversion F; subst. destruct (IH _ H3) as (p & Fp). eexists. constructor; eassumption.
      - inversion F as [|? ? ? ? E1 F1]; subst. inversion F1 as [|? ? ? ? E2 F2]; subst. eexists. constructor; [exact E2|]. constructor; [exact E1|exact F2].
      - destruct (IH _ F) as (p & Fp). exact (IH' _ Fp). }
    destruct M as (p & Fp). exact (Permutation_trans (IH _ _ F Fp) (IH' _ _ Fp F')).
Qed.

(** ** Order of the rotations, and of ties *)
Theorem order_free hp rots rots' n argsort argsort' ks ks' : sorts argsort -> sorts argsort' -> Permutation rots rots' -> Forall sound_play rots ->
  estimate_kill_time hp rots n argsort = Ok ks -> estimate_kill_time hp rots' n argsort' = Ok ks' -> ks' = ks.
Proof.
  intros A A' P S H H'. destruct (estimate_fates _ _ _ _ _ A H) as (parts & F & K). destruct (estimate_fates _ _ _ _ _ A' H') as (parts' & F' & K').
  pose proof (sound_nonneg n rots parts S F) as N. pose proof (sound_nonneg n rots' parts' (Permutation_Forall P S) F') as N'.
  destruct (K N) as (d & D & ->). destruct (K' N') as (d' & D' & ->). f_equal.
  pose proof (concat_perm _ _ (Permutation_map snd (rows_perm n _ _ _ _ P F F'))) as Q.
  exact (fates_unique hp _ n d' d D' (fates_perm hp _ _ n d Q D)).
Qed.

(** ** More players *)
Lemma rows_refl l : Forall2 rows_up l l.
Proof. induction l as [|[t cs] l IH]; constructor; [|exact IH]. split; [reflexivity|]. cbn. clear. induction cs; constructor; [apply Qle_refl|assumption]. Qed.
Theorem more_players hp rots more n argsort ks ks' : sorts argsort -> Forall sound_play rots -> Forall sound_play more ->
  estimate_kill_time hp rots n argsort = Ok ks -> estimate_kill_time hp (rots ++ more) n argsort = Ok ks' ->
  exists deaths deaths', ks = reported deaths /\ ks' = reported deaths' /\ Forall2 not_earlier deaths' deaths.
Proof.
  intros A S S' H H'. destruct (estimate_fates _ _ _ _ _ A H) as (parts & F & K). destruct (estimate_fates _ _ _ _ _ A H') as (parts' & F' & K').
  assert (SS : Forall sound_play (rots ++ more)) by (apply Forall_app; auto).
  pose proof (sound_nonneg n _ _ S F) as N. pose proof (sound_nonneg n _ _ SS F') as N'.
  destruct (K N) as (d & D & ->). destruct (K' N') as (d' & D' & ->). exists d, d'. split; [reflexivity|]. split; [reflexivity|].
  apply Forall2_app_inv_l in F' as (p1 & p2 & F1 & F2 & ->). rewrite (rows_unique _ _ _ _ F F1) in *.
  refine (fates_more hp _ _ n d d' N' _ D D'). rewrite map_app, concat_app. exists (List.concat (map snd p2)), (List.concat (map snd parts)).
  split; [apply Permutation_app_comm|apply rows_refl].
Qed.

(** ** The number of samples *)
Definition first_cells (n : nat) (r r' : Z * list Q) : Prop := fst r = fst r' /\ snd r = firstn n (snd r').
Lemma seq_firstn n n' k : (n <= n')%nat -> firstn n (seq k n') = seq k n.
Proof.
  revert n' k. induction n as [|n IH]; intros n' k L; [reflexivity|]. destruct n' as [|n']; [lia|]. cbn. f_equal. apply IH. lia.
Qed.
Lemma repeat_firstn {A} (x : A) n n' : (n <= n')%nat -> firstn n (repeat x n') = repeat x n.
Proof. revert n'. induction n as [|n IH]; intros [|n'] L; try reflexivity; [lia|]. cbn. f_equal. apply IH. lia. Qed.
Lemma fewer_rows n n' b u b1 rows b1' rows' : (n <= n')%nat -> rotation_rows n b u = Ok (b1, rows) -> rotation_rows n' b u = Ok (b1', rows') ->
  Forall2 (first_cells n) rows rows'.
Proof.
  intros L R R'. destruct (row_cells _ _ _ _ _ R) as (h & H & E & K). destruct (row_cells _ _ _ _ _ R') as (h' & H' & E' & K').
  rewrite (run_hits_one _ _ _ H H') in *. clear h' H'.
  assert (G : forall i r r', nth_error rows i = Some r -> nth_error rows' i = Some r' -> first_cells n r r').
  { intros i r r' X X'. destruct (nth_error (sort_by di_time h) i) as [x|] eqn:Ex. 2:{ apply nth_error_None in Ex. assert (i < List.length rows)%nat by (apply nth_error_Some; congruence). lia. }
    destruct (K i x Ex) as (cells & row & Y1 & Y2 & Y3). destruct (K' i x Ex) as (cells' & row' & Y1' & Y2' & Y3').
    rewrite X in Y1. injection Y1 as ->. rewrite X' in Y1'. injection Y1' as ->. rewrite Y2 in Y2'. injection Y2' as <-. split; [reflexivity|]. cbn [snd].
    unfold lb_row in *. destruct (contains "LB" (sk_name (di_skill x))).
    - unfold get_lb_damage in *. destruct (search_label "Mean Damage:" (join "," (sm_cond (di_modifier x)))), (search_label "Exact Damage:" (join "," (sm_cond (di_modifier x)))); try discriminate;
        injection Y3 as <-; injection Y3' as <-; try (rewrite firstn_map, (seq_firstn _ _ _ L); reflexivity). symmetry. apply repeat_firstn, L.
    - injection Y3 as <-. injection Y3' as <-. rewrite firstn_map, (seq_firstn _ _ _ L). reflexivity. }
  clear K K' R R'. rewrite <- E in E'. clear E. revert rows' E' G. induction rows as [|r rows IH]; intros [|r' rows'] E G; try discriminate; constructor.
  - apply (G 0%nat); reflexivity.
  - apply IH; [injection E; auto|]. intros i. apply (G (Datatypes.S i)).
Qed.
Lemma first_dealt n j t l l' : (j < n)%nat -> Forall2 (first_cells n) l l' -> dealt_by j t l = dealt_by j t l'.
Proof.
  intros L F. unfold dealt_by. induction F as [|a b l l' (E1 & E2) _ IH]; [reflexivity|]. cbn [filter]. rewrite E1. destruct (fst b <=? t); [|exact IH].
  cbn [map]. assert (C : cell j a = cell j b); [|rewrite C; unfold qsum in *; cbn [fold_left fold_right]; try rewrite IH; reflexivity]. unfold cell. rewrite E2. clear - L. revert j L. generalize (snd b). induction n as [|n IH]; intros cs j L; [lia|].
  destruct cs as [|c cs]; [reflexivity|]. destruct j as [|j]; [reflexivity|]. cbn. apply IH. lia.
Qed.
Lemma first_times n l l' : Forall2 (first_cells n) l l' -> map fst l = map fst l'.
Proof. induction 1 as [|a b l l' (E & _) _ IH]; cbn; congruence. Qed.
Theorem fewer_samples hp rots n n' argsort ks ks' : sorts argsort -> Forall sound_play rots -> (n <= n')%nat ->
  estimate_kill_time hp rots n argsort = Ok ks -> estimate_kill_time hp rots n' argsort = Ok ks' ->
  exists deaths', ks' = reported deaths' /\ List.length deaths' = n' /\ ks = reported (firstn n deaths').
Proof.
  intros A S L H H'. destruct (estimate_fates _ _ _ _ _ A H) as (parts & F & K). destruct (estimate_fates _ _ _ _ _ A H') as (parts' & F' & K').
  destruct (K (sound_nonneg n _ _ S F)) as (d & D & ->). destruct (K' (sound_nonneg n' _ _ S F')) as (d' & D' & ->).
  exists d'. split; [reflexivity|]. split; [apply D'|]. f_equal.
  assert (R : Forall2 (first_cells n) (List.concat (map snd parts)) (List.concat (map snd parts'))).
  { clear - F F' L. revert parts' F'. induction F as [|[b u] [b1 rows] l l' E _ IH]; intros parts' F'; inversion F' as [|? [b1' rows'] ? ? E' F1]; subst; [constructor|].
    cbn [map List.concat snd]. apply Forall2_app; [|apply IH; assumption]. cbn [fst snd] in *. exact (fewer_rows n n' b u _ _ _ _ L E E'). }
  apply (fates_unique hp (List.concat (map snd parts)) n); [exact D|]. destruct D' as (E & D'). split; [rewrite firstn_length; lia|].
  intros j o O. assert (Lj : (j < n)%nat). { assert (j < List.length (firstn n d'))%nat by (apply nth_error_Some; congruence). rewrite firstn_length in *. lia. }
  assert (O' : nth_error d' j = Some o).
  { rewrite <- (firstn_skipn n d'). rewrite nth_error_app1; [exact O|]. apply nth_error_Some. congruence. }
  specialize (D' j o O'). unfold fate, dies_at, survives in *. rewrite (first_times _ _ _ R). destruct o as [t|].
  - destruct D' as (D1 & D2 & D3). split; [exact D1|]. split; [rewrite (first_dealt n j t _ _ Lj R); exact D2|]. intros t' I T. rewrite (first_dealt n j t' _ _ Lj R). exact (D3 t' I T).
  - intros t I. rewrite (first_dealt n j t _ _ Lj R). exact (D' t I).
Qed.

Lemma made_sound lib g st snap au ig fs w target l b u : sane_library lib -> gear_nonneg g -> stats_of g = Ok st ->
  rotation_with st lib snap au ig fs w target l = Ok b -> draws_ok u -> sound_play (b, u).
Proof.
  intros L N S R D. split; [|split; [exact (made_nonneg lib L st snap au ig fs w target l b R)|exact D]]. exists g. cbn [fst].
  unfold rotation_with in R. apply bind_ok in R as (b0 & B0 & F). destruct (init_keeps _ _ _ _ _ _ _ _ _ B0) as (K1 & _). destruct (follow_keeps _ _ _ F) as (L1 & _).
  split; [congruence|apply N].
Qed.
