(** * Combo, job resource and channeling trackers *)

From Coq Require Import ZArith List String Bool Lia Permutation Sorted.
From Verif Require Import Base BaseFacts Strings Types Lookup Stats Library StatusEffect Combo JobResource Channeling Events Rotation SpecTrackers.
Import ListNotations.
Open Scope Z_scope.

(** ** Combos *)

Lemma combo_succeeded_spec ct t c m :
  combo_succeeded ct t c m = true <-> combo_ok (combo_view ct) t c m.
Proof.
  unfold combo_succeeded, combo_ok, combo_view, COMBO_EXPIRATION_TIME. rewrite !orb_true_iff. split.
  - intros [[[H|H]|H]|H]; [auto | auto | |].
    + right. right. left. destruct (combo_actions c); [reflexivity | discriminate].
    + right. right. right. destruct (zget (combo_group c) (ct_last ct)) as [[[t0 p]|]|]; try discriminate.
      apply andb_true_iff in H as [H1 H2]. apply smem_spec in H2. exists t0, p. split; [reflexivity|]. split; [lia | exact H2].
  - intros [H|[H|[H|(t0 & p & H1 & H2 & H3)]]]; [auto | auto | |].
    + left. right. rewrite H. reflexivity.
    + right. destruct (zget (combo_group c) (ct_last ct)) as [[[t1 p1]|]|]; try discriminate.
      injection H1 as -> ->. apply andb_true_iff. split; [lia | apply smem_spec, H3].
Qed.

Lemma combo_view_set ct br g o h :
  combo_view (mkComboTracker (zset g o (ct_last ct)) br) h = if h =? g then o else combo_view ct h.
Proof. unfold combo_view. cbn [ct_last]. rewrite zget_zset. destruct (h =? g); reflexivity. Qed.

Lemma break_fold g (br : zdict (list Z)) : forall (l : zdict (option (Z * string))) h,
  (breaks br g h -> zget h (fold_left (fun l gb => if existsb (Z.eqb g) (snd gb) then zset (fst gb) None l else l) br l) = Some None)
  /\ (~ breaks br g h -> zget h (fold_left (fun l gb => if existsb (Z.eqb g) (snd gb) then zset (fst gb) None l else l) br l) = zget h l).
Proof.
  induction br as [|[k bl] br IH]; intros l h; cbn [fold_left].
  - split; [intros (x & [] & _) | reflexivity].
  - cbn [fst snd]. destruct (existsb (Z.eqb g) bl) eqn:E.
    + assert (Gin : In g bl) by (apply existsb_exists in E as (x & Hx & Ex); apply Z.eqb_eq in Ex; subst; exact Hx).
      destruct (IH (zset k None l) h) as [I1 I2]. split.
      * intros (x & [Hx|Hx] & Gx); [|apply I1; exists x; auto]. injection Hx as -> ->.
        destruct (In_dec Z.eq_dec g (flat_map (fun kv => if fst kv =? h then snd kv else []) br)) as [D|D].
        { apply I1. apply in_flat_map in D as ([k l'] & Hk & Dk). cbn in Dk. destruct (Z.eqb_spec k h) as [->|]; [|destruct Dk].
          exists l'. auto. }
        rewrite I2; [rewrite zget_zset, Z.eqb_refl; reflexivity|].
        intros (l' & Hl & Gl). apply D. apply in_flat_map. exists (h, l'). split; [exact Hl|]. cbn. rewrite Z.eqb_refl. exact Gl.
      * intros N. rewrite I2; [|intros (l' & Hl & Gl); apply N; exists l'; split; [right; exact Hl | exact Gl]].
        rewrite zget_zset. destruct (Z.eqb_spec h k) as [->|]; [|reflexivity].
        exfalso. apply N. exists bl. split; [left; reflexivity | exact Gin].
    + destruct (IH l h) as [I1 I2].
      assert (Gn : ~ In g bl).
      { intros Hin. assert (existsb (Z.eqb g) bl = true); [|congruence]. apply existsb_exists. exists g. split; [exact Hin | apply Z.eqb_refl]. }
      split.
      * intros (x & [Hx|Hx] & Gx); [injection Hx as -> ->; contradiction | apply I1; exists x; auto].
      * intros N. apply I2. intros (l' & Hl & Gl). apply N. exists l'. split; [right; exact Hl | exact Gl].
Qed.

Lemma combo_step_used t name m ct ok c :
  exists b, snd (combo_step t name m (ct, ok) c) = ok && b
  /\ combo_used (ct_breakers ct) t name m (combo_view ct) c b (combo_view (fst (combo_step t name m (ct, ok) c)))
  /\ ct_breakers (fst (combo_step t name m (ct, ok) c)) = ct_breakers ct.
Proof.
  unfold combo_step. destruct (break_all_combos_only c) eqn:B.
  - exists true. cbn [fst snd]. rewrite andb_true_r. split; [reflexivity|]. split; [|reflexivity].
    apply cu_break_all; [exact B | reflexivity].
  - set (ct1 := match zget (combo_group c) (ct_last ct) with None => _ | Some _ => ct end).
    assert (V : forall h, combo_view ct1 h = combo_view ct h).
    { intros h. unfold ct1. destruct (zget (combo_group c) (ct_last ct)) eqn:G; [reflexivity|].
      rewrite combo_view_set. destruct (Z.eqb_spec h (combo_group c)) as [->|]; [|reflexivity].
      unfold combo_view. rewrite G. reflexivity. }
    assert (Br : ct_breakers ct1 = ct_breakers ct) by (unfold ct1; destruct (zget _ _); reflexivity).
    exists (combo_succeeded ct1 t c m). cbn [fst snd]. split; [reflexivity|]. split; [|exact Br].
    set (b := combo_succeeded ct1 t c m).
    assert (U : forall h,
       (breaks (ct_breakers ct) (combo_group c) h -> combo_view (update_combo ct1 t c b name) h = None)
       /\ (~ breaks (ct_breakers ct) (combo_group c) h ->
           combo_view (update_combo ct1 t c b name) h
           = if h =? combo_group c then (if b then Some (t, name) else None) else combo_view ct h)).
    { intros h. rewrite <- (V h). unfold combo_view at 1 2, update_combo. cbn [ct_last]. rewrite Br.
      destruct (break_fold (combo_group c) (ct_breakers ct)
                  (zset (combo_group c) (if b then Some (t, name) else None) (ct_last ct1)) h) as [F1 F2].
      split; intros H; [rewrite (F1 H); reflexivity|]. rewrite (F2 H), zget_zset. unfold combo_view.
      destruct (h =? combo_group c); reflexivity. }
    apply cu_action; [exact B | | | |].
    + unfold b. rewrite combo_succeeded_spec. unfold combo_ok. rewrite V. reflexivity.
    + intros h H. apply U, H.
    + intros h H N. rewrite (proj2 (U h) H). apply Z.eqb_neq in N. rewrite N. reflexivity.
    + intros H. rewrite (proj2 (U _) H), Z.eqb_refl. reflexivity.
Qed.

Lemma combo_fold_used t name m specs : forall ct ok,
  exists oks, snd (fold_left (combo_step t name m) specs (ct, ok)) = ok && oks
  /\ combos_used (ct_breakers ct) t name m (combo_view ct) specs oks
       (combo_view (fst (fold_left (combo_step t name m) specs (ct, ok))))
  /\ ct_breakers (fst (fold_left (combo_step t name m) specs (ct, ok))) = ct_breakers ct.
Proof.
  induction specs as [|c l IH]; intros ct ok; cbn [fold_left].
  - exists true. cbn. rewrite andb_true_r. split; [reflexivity|]. split; [apply cs_nil; reflexivity | reflexivity].
  - destruct (combo_step_used t name m ct ok c) as (b & E1 & U & B1).
    destruct (combo_step t name m (ct, ok) c) as [ct1 ok1]. cbn [fst snd] in *.
    destruct (IH ct1 ok1) as (oks & E2 & Us & B2). exists (b && oks). split; [|split].
    + rewrite E2, E1. rewrite andb_assoc. reflexivity.
    + eapply cs_cons; [exact U|]. rewrite <- B1. exact Us.
    + congruence.
Qed.

Lemma compile_combo_spec ct t s m specs :
  get_combo_spec s m = Ok specs ->
  exists ct' (ok : bool), compile_and_update_combo ct t s m = Ok (ct', if ok then COMBO_SUCCESS else COMBO_FAIL)
  /\ combos_used (ct_breakers ct) t (sk_name s) m (combo_view ct) specs ok (combo_view ct')
  /\ ct_breakers ct' = ct_breakers ct.
Proof.
  intros H. unfold compile_and_update_combo. rewrite H. cbn [bind].
  destruct (combo_fold_used t (sk_name s) m specs ct true) as (ok & E & U & B).
  destruct (fold_left (combo_step t (sk_name s) m) specs (ct, true)) as [ct' b]. cbn [fst snd] in *.
  exists ct', ok. subst b. auto.
Qed.

(** ** Job resources *)

Lemma refreshed_at_snoc l e :
  refreshed_at (l ++ [e])
  = Some (if jr_refreshes (je_spec e) then je_start e
          else match refreshed_at l with Some r => r | None => je_start e end).
Proof.
  unfold refreshed_at. rewrite rev_app_distr. cbn. destruct (jr_refreshes (je_spec e)); [reflexivity|].
  destruct (find _ (rev l)); [reflexivity|]. destruct l; reflexivity.
Qed.
Lemma later_than_spec t e : z_gt_ext t e = true <-> later_than t e.
Proof. destruct e; cbn; [apply Z.ltb_lt | split; [discriminate | tauto]]. Qed.
Lemma clamped_sum_snoc mx l e :
  clamped_sum mx (l ++ [e]) = match jr_change (je_spec e) with
                              | Change z => Z.max 0 (Z.min mx (clamped_sum mx l + z))
                              | ChangeNegInf => 0
                              end.
Proof. unfold clamped_sum. rewrite fold_left_app. reflexivity. Qed.
Lemma jr_active_spec t e : jr_active t e = negb ((t <? je_start e) || z_gt_ext t (je_end e)).
Proof.
  unfold jr_active. destruct (je_end e) as [x|]; cbn; rewrite negb_orb; f_equal; lia.
Qed.

Lemma resource_fold cfg t l :
  exists l1 l2, since_run_out cfg l l1 l2
  /\ fold_left (resource_step cfg t) l (0, None)
     = (clamped_sum (jrs_max cfg) (filter (jr_active t) l2), refreshed_at l).
Proof.
  induction l as [|e l IH] using rev_ind.
  - exists [], []. split; [|reflexivity]. split; [reflexivity|]. split; [left; reflexivity|].
    intros a e b H. destruct a; discriminate.
  - destruct IH as (l1 & l2 & (S1 & S2 & S3) & F). rewrite fold_left_app, F. cbn [fold_left resource_step].
    rewrite refreshed_at_snoc.
    set (r := match refreshed_at l with None => je_start e | Some r => r end).
    set (total1 := if z_gt_ext (je_start e) (ext_add (Fin r) (jrs_expiry cfg)) then 0 else _).
    assert (Hs : exists l1' l2', since_run_out cfg (l ++ [e]) l1' (l2' ++ [e])
                 /\ total1 = clamped_sum (jrs_max cfg) (filter (jr_active t) l2')).
    { unfold total1. destruct (refreshed_at l) as [r0|] eqn:R; subst r.
      - destruct (z_gt_ext (je_start e) (ext_add (Fin r0) (jrs_expiry cfg))) eqn:G.
        + exists l, []. split; [|reflexivity]. split; [reflexivity|]. split.
          * right. exists e, []. split; [reflexivity|]. exists r0. split; [exact R | apply later_than_spec, G].
          * intros a x b H Na. destruct a as [|? [|? ?]]; try discriminate. congruence.
        + exists l1, l2. split; [|reflexivity]. split; [rewrite S1, app_assoc; reflexivity|]. split.
          * destruct S2 as [S2|(x & rest & -> & S2)]; [left; exact S2|]. right. exists x, (rest ++ [e])%list. auto.
          * intros a x b H Na.
            destruct (@exists_last _ (x :: b)) as (b' & z & Eb); [discriminate|]. rewrite Eb, app_assoc in H.
            apply app_inj_tail in H as [H <-]. destruct b' as [|y b'].
            { cbn in Eb. injection Eb as -> ->. rewrite app_nil_r in H. subst a. rewrite <- S1.
              intros (r1 & R1 & L). rewrite R in R1. injection R1 as <-. apply later_than_spec in L. congruence. }
            cbn in Eb. injection Eb as <- Eb. apply (S3 a x b' H Na).
      - assert (El : l = []).
        { unfold refreshed_at in R. destruct (find _ (rev l)); [discriminate|]. destruct l; [reflexivity | discriminate]. }
        rewrite El in *. destruct l1, l2; try discriminate. exists [], []. split.
        + split; [reflexivity|]. split; [left; reflexivity|]. intros a x b H Na. destruct a as [|? [|? ?]]; try discriminate. congruence.
        + destruct (z_gt_ext _ _); reflexivity. }
    destruct Hs as (l1' & l2' & Hs & Ht). exists l1', (l2' ++ [e])%list. split; [exact Hs|].
    rewrite filter_app. cbn [filter]. rewrite jr_active_spec.
    destruct ((t <? je_start e) || z_gt_ext t (je_end e)); cbn [negb].
    + rewrite app_nil_r, Ht. destruct (jr_refreshes (je_spec e)); unfold r; destruct (refreshed_at l); reflexivity.
    + rewrite clamped_sum_snoc, <- Ht. f_equal.
      * unfold apply_change. destruct (jr_change (je_spec e)); [|reflexivity]. rewrite (Z.min_comm (jrs_max cfg)). reflexivity.
Qed.

Lemma run_out_dec cfg l t : {run_out cfg l t} + {~ run_out cfg l t}.
Proof.
  unfold run_out. destruct (refreshed_at l) as [r|].
  - destruct (z_gt_ext t (ext_add (Fin r) (jrs_expiry cfg))) eqn:G.
    + left. exists r. split; [reflexivity | apply later_than_spec, G].
    + right. intros (r0 & E & L). injection E as <-. apply later_than_spec in L. congruence.
  - right. intros (r0 & E & _). discriminate.
Qed.

Lemma resource_total_spec cfg t l :
  exists l1 l2, since_run_out cfg l l1 l2
  /\ ((run_out cfg l t /\ refreshed_at l <> Some 0) -> resource_total cfg t l = 0)
  /\ (~ (run_out cfg l t /\ refreshed_at l <> Some 0) ->
      resource_total cfg t l = clamped_sum (jrs_max cfg) (filter (jr_active t) l2)).
Proof.
  destruct (resource_fold cfg t l) as (l1 & l2 & S & F). exists l1, l2. split; [exact S|].
  unfold resource_total. rewrite F. unfold run_out. destruct (refreshed_at l) as [r|].
  - destruct (Z.eqb_spec r 0) as [->|Nr]; cbn [negb andb].
    + split; [intros [_ H]; congruence | reflexivity].
    + destruct (z_gt_ext t (ext_add (Fin r) (jrs_expiry cfg))) eqn:G.
      * split; [reflexivity|]. intros H. exfalso. apply H. split; [|congruence].
        exists r. split; [reflexivity | apply later_than_spec, G].
      * split; [|reflexivity]. intros [(r0 & E & L) _]. injection E as <-. apply later_than_spec in L. congruence.
  - split; [intros [(r & E & _) _]; discriminate | reflexivity].
Qed.

Lemma clamped_sum_bounds mx l : 0 <= clamped_sum mx l <= Z.max 0 mx.
Proof.
  induction l as [|e l IH] using rev_ind; [cbn; lia|]. rewrite clamped_sum_snoc. destruct (jr_change (je_spec e)); lia.
Qed.
Lemma resource_total_bounds cfg t l : 0 <= resource_total cfg t l <= Z.max 0 (jrs_max cfg).
Proof.
  destruct (resource_total_spec cfg t l) as (l1 & l2 & _ & H1 & H2).
  pose proof (clamped_sum_bounds (jrs_max cfg) (filter (jr_active t) l2)).
  destruct (run_out_dec cfg l t) as [R|R].
  - destruct (refreshed_at l) as [r|] eqn:Er; [destruct (Z.eq_dec r 0) as [->|Nr]|].
    + rewrite H2; [exact H|]. intros [_ N]; congruence.
    + rewrite H1; [lia|]. split; [exact R | congruence].
    + rewrite H1; [lia|]. split; [exact R | congruence].
  - rewrite H2; [exact H|]. tauto.
Qed.

(** The tracker after a history. *)
Definition jr_matches (settings : dict jr_settings) (hist : string -> list jr_entry) (tr : jr_tracker) : Prop :=
  Forall2 (fun kc kv => fst kv = fst kc /\ fst (snd kv) = snd kc
             /\ sort_by je_start (snd (snd kv)) = sort_by je_start (hist (fst kc))) settings tr.

Lemma sort_by_app_congr {A} (key : A -> Z) l1 l2 l : sort_by key l1 = sort_by key l2 ->
  sort_by key (l1 ++ l) = sort_by key (l2 ++ l).
Proof.
  unfold sort_by, sort_lt. intros H. rewrite !fold_left_app, H. reflexivity.
Qed.

Lemma jr_matches_ext settings h1 h2 tr : (forall n, h1 n = h2 n) -> jr_matches settings h1 tr -> jr_matches settings h2 tr.
Proof.
  intros E F. unfold jr_matches in *. induction F as [|kc kv s l (F1 & F2 & F3) F IH]; constructor; auto.
  rewrite <- E. auto.
Qed.
Lemma jr_matches_keys settings hist tr : jr_matches settings hist tr -> dkeys tr = dkeys settings.
Proof. intros F. unfold dkeys. induction F as [|kc kv s l (F1 & _) F IH]; cbn [map]; [reflexivity|]. rewrite F1, IH. reflexivity. Qed.

Lemma add_one_matches settings hist tr t sp tr' :
  NoDup (dkeys settings) ->
  jr_matches settings hist tr -> add_one_resource t tr sp = Ok tr' ->
  jr_matches settings (fun n => hist n ++
     (if jr_clear_all sp then [mkJrEntry t Inf (mkJr n ChangeNegInf Inf false false)]
      else if String.eqb (jr_name sp) n then [mkJrEntry t (ext_add (Fin t) (jr_duration sp)) sp] else []))%list tr'.
Proof.
  intros N F H. unfold add_one_resource in H. destruct (jr_clear_all sp).
  - injection H as <-. clear N. unfold clear_resources. induction F as [|kc kv s l (F1 & F2 & F3) F IH]; cbn; constructor; [|exact IH].
    cbn. split; [exact F1|]. split; [exact F2|]. rewrite F1. apply sort_by_app_congr, F3.
  - inv_bind H. destruct a as [cfg l]. injection H as <-.
    destruct (dget (jr_name sp) tr) as [[cfg' l']|] eqn:G; [|discriminate]. cbn in E. injection E as -> ->.
    set (new := [_]). clearbody new. revert G N. induction F as [|kc kv s tr (F1 & F2 & F3) F IH]; intros G N; [discriminate|].
    destruct kv as [k v], kc as [k0 c]. cbn [fst snd] in *. subst k0. cbn [dset dget] in *.
    rewrite String.eqb_sym in G |- *. inversion N as [|? ? N1 N2]; subst.
    destruct (String.eqb_spec k (jr_name sp)) as [Ek|Nk].
    + injection G as ->. cbn in *. constructor.
      * cbn. rewrite <- Ek. rewrite String.eqb_refl. split; [reflexivity|]. split; [reflexivity|]. apply sort_by_app_congr, F3.
      * clear - F N1 Ek. subst. induction F as [|kc kv s l (F1 & F2 & F3) F IH]; constructor.
        -- split; [exact F1|]. split; [exact F2|]. destruct (String.eqb_spec (jr_name sp) (fst kc)) as [E|].
           ++ exfalso. apply N1. left. symmetry. exact E.
           ++ rewrite app_nil_r. exact F3.
        -- apply IH. intros I. apply N1. right. exact I.
    + constructor.
      * cbn. split; [reflexivity|]. split; [reflexivity|]. destruct (String.eqb_spec (jr_name sp) k); [congruence|].
        rewrite app_nil_r. exact F3.
      * apply IH; [exact G | exact N2].
Qed.

Lemma jr_apply_matches settings hist tr op tr' :
  NoDup (dkeys settings) ->
  jr_matches settings hist tr -> jr_apply tr op = Ok tr' ->
  jr_matches settings (fun n => hist n ++ recorded n op)%list tr'.
Proof.
  intros N F H. destruct op as [t s m|t n]; cbn [jr_apply recorded] in *.
  - unfold add_resource in H. inv_bind H. rewrite E. clear E. revert hist tr F H.
    induction a as [|sp l IH]; intros hist tr F H; cbn in H.
    + injection H as <-. eapply jr_matches_ext; [|exact F]. intros; cbn. rewrite app_nil_r. reflexivity.
    + inv_bind H. apply add_one_matches with (1 := N) (2 := F) in E. apply IH with (1 := E) in H.
      eapply jr_matches_ext; [|exact H]. intros k. cbn [flat_map]. rewrite <- app_assoc. reflexivity.
  - injection H as <-. cbn [compile_job_resources fst].
    eapply jr_matches_ext; [intros; symmetry; apply app_nil_r|].
    clear N. induction F as [|kc kv s l (F1 & F2 & F3) F IH]; cbn; constructor; [|exact IH].
    destruct kv as [k [cfg es]]. cbn in *. destruct (smem n (jrs_allowlist cfg)); cbn [fst snd]; [|auto].
    rewrite sort_by_idem. auto.
Qed.

Lemma jr_run_matches settings ops tr :
  NoDup (dkeys settings) -> foldM jr_apply ops (jr_init settings) = Ok tr ->
  jr_matches settings (fun n => jr_history n ops) tr.
Proof.
  intros N H. unfold jr_history.
  assert (G : forall ops hist tr0 tr, jr_matches settings hist tr0 -> foldM jr_apply ops tr0 = Ok tr ->
            jr_matches settings (fun n => hist n ++ flat_map (recorded n) ops)%list tr).
  { clear ops tr H. induction ops as [|op ops IH]; intros hist tr0 tr F H; cbn in H.
    - injection H as <-. eapply jr_matches_ext; [|exact F]. intros; cbn. rewrite app_nil_r. reflexivity.
    - inv_bind H. eapply jr_apply_matches in E; [|exact N | exact F]. eapply IH in H; [|exact E].
      eapply jr_matches_ext; [|exact H]. intros k. cbn [flat_map]. rewrite <- app_assoc. reflexivity. }
  apply (G ops (fun _ => []) (jr_init settings) tr); [|exact H].
  clear. unfold jr_matches, jr_init. induction settings as [|kc s IH]; cbn; constructor; auto.
Qed.

(** What is reported. *)
Lemma compile_job_resources_spec settings ops tr t n :
  NoDup (dkeys settings) -> foldM jr_apply ops (jr_init settings) = Ok tr ->
  snd (compile_job_resources tr t n)
  = join ", " (flat_map (fun kc =>
      if smem n (jrs_allowlist (snd kc))
      then resource_condition (snd kc) (fst kc)
             (resource_total (snd kc) t (sort_by je_start (jr_history (fst kc) ops)))
      else []) settings).
Proof.
  intros N H. apply jr_run_matches in H; [|exact N]. cbn [compile_job_resources snd]. f_equal. clear N.
  induction H as [|kc kv s l (F1 & F2 & F3) F IH]; [reflexivity|]. cbn [map flat_map]. rewrite IH. f_equal.
  destruct kv as [k [cfg es]]. cbn [fst snd] in *. rewrite F1, F2.
  destruct (smem n (jrs_allowlist (snd kc))) eqn:E; rewrite E; [|reflexivity].
  rewrite F3. reflexivity.
Qed.

(** ** Channeling *)

Definition cur_windows (cur : option (Z * channeling_spec * ext)) (l : list ch_use) : list (Z * ext) :=
  match cur with
  | Some (start, c, uses) =>
      [(start, match cut_time (ch_allowlist c) uses l with
               | Some t' => ext_min (ext_add (Fin start) (ch_duration c)) (Fin t')
               | None => ext_add (Fin start) (ch_duration c)
               end)]
  | None => []
  end.
Lemma channel_loop l : forall st, ch_final st = false ->
  Forall (fun u => is_wait (snd (fst u)) = true \/ ch_plain u) l ->
  exists st', foldM ch_process l st = Ok st'
  /\ ch_final st' = false
  /\ (ch_windows st' ++ cur_windows (ch_current st') [] = ch_windows st ++ cur_windows (ch_current st) l ++ windows_of l)%list.
Proof.
  induction l as [|[[t s] m] l IH]; intros st Hf Fp.
  - exists st. split; [reflexivity|]. split; [exact Hf|]. cbn. rewrite app_nil_r. reflexivity.
  - inversion Fp as [|? ? F1 F2]; subst. cbn [foldM]. unfold ch_process at 1, process_channeling at 1. rewrite Hf.
    cbn [fst snd] in F1. unfold ch_plain in F1. cbn [fst snd] in F1.
    change (contains WAIT_PREFIX (sk_name s)) with (is_wait s).
    destruct (is_wait s) eqn:W.
    + cbn [bind]. destruct (IH st Hf F2) as (st' & H1 & H2 & H3). exists st'. split; [exact H1|]. split; [exact H2|].
      rewrite H3. cbn [windows_of channels]. rewrite W. destruct (ch_current st) as [[[start c] u]|]; [|reflexivity].
      cbn [cur_windows cut_time]. rewrite W. reflexivity.
    + destruct F1 as [F1|F1]; [discriminate|]. unfold get_channeling_spec.
      destruct (sk_channeling s) as [|c|d] eqn:C; [| |destruct F1].
      * cbn [bind].
        destruct (ch_current st) as [[[start cur] uses]|] eqn:Cu.
        -- destruct (smem (sk_name s) (ch_allowlist cur)) eqn:A.
           ++ destruct (ext_pos (ext_subz uses 1)) eqn:P; cbn [bind].
              ** destruct (IH (mkCh (ch_windows st) (Some (start, cur, ext_subz uses 1)) false) eq_refl F2) as (st' & H1 & H2 & H3).
                 exists st'. split; [exact H1|]. split; [exact H2|]. rewrite H3. cbn [windows_of channels ch_current ch_windows].
                 rewrite W, C. cbn [cur_windows cut_time channels]. rewrite W, C, A, P. reflexivity.
              ** destruct (IH (end_channeling st start cur t) Hf F2) as (st' & H1 & H2 & H3).
                 exists st'. split; [exact H1|]. split; [exact H2|]. rewrite H3. cbn [windows_of channels ch_current ch_windows end_channeling].
                 rewrite W, C. cbn [cur_windows cut_time channels]. rewrite W, C, A, P. rewrite <- app_assoc. reflexivity.
           ++ cbn [bind]. destruct (IH (end_channeling st start cur t) Hf F2) as (st' & H1 & H2 & H3).
              exists st'. split; [exact H1|]. split; [exact H2|]. rewrite H3. cbn [windows_of channels ch_current ch_windows end_channeling].
              rewrite W, C. cbn [cur_windows cut_time channels]. rewrite W, C, A. rewrite <- app_assoc. reflexivity.
        -- cbn [bind]. destruct (IH st Hf F2) as (st' & H1 & H2 & H3). exists st'. split; [exact H1|]. split; [exact H2|].
           rewrite H3, Cu. cbn [windows_of channels]. rewrite W, C. reflexivity.
      * cbn [bind]. destruct (ch_current st) as [[[start cur] uses]|] eqn:Cu.
        -- unfold start_channeling. cbn [ch_current end_channeling bind].
           destruct (IH (mkCh (ch_windows (end_channeling st start cur t)) (Some (t, c, ch_num_uses c)) (ch_final (end_channeling st start cur t))) Hf F2)
             as (st' & H1 & H2 & H3).
           exists st'. split; [exact H1|]. split; [exact H2|]. rewrite H3. cbn [windows_of channels ch_current ch_windows end_channeling].
           rewrite W, C. cbn [cur_windows cut_time channels fst snd]. rewrite W, C. rewrite <- app_assoc. reflexivity.
        -- unfold start_channeling. rewrite Cu, Hf. cbn [bind].
           destruct (IH (mkCh (ch_windows st) (Some (t, c, ch_num_uses c)) false) eq_refl F2) as (st' & H1 & H2 & H3).
           exists st'. split; [exact H1|]. split; [exact H2|]. rewrite H3. cbn [windows_of channels ch_current ch_windows].
           rewrite W, C. reflexivity.
Qed.

Lemma channel_run_eq l :
  Forall (fun u => is_wait (snd (fst u)) = true \/ ch_plain u) l ->
  channel_run l = Ok (sort_lt window_ltb (windows_of l)).
Proof.
  intros F. unfold channel_run. destruct (channel_loop l ch_init eq_refl F) as (st & -> & Hf & W). cbn [bind].
  unfold ch_finalize. rewrite Hf. cbn [bind get_channeling_windows ch_final ch_windows]. f_equal. f_equal.
  cbn in W. rewrite <- W. destruct (ch_current st) as [[[a c] u]|]; cbn; [reflexivity | rewrite app_nil_r; reflexivity].
Qed.

(** Time-ordered uses. *)
Lemma cut_time_ge allow l : forall uses t t', Forall (fun u => t <= ch_time u) l -> cut_time allow uses l = Some t' -> t <= t'.
Proof.
  induction l as [|[[t1 s] m] l IH]; intros uses t t' F H; cbn in H; [discriminate|].
  inversion F as [|? ? F1 F2]; subst. cbn in F1. destruct (is_wait s); [eapply IH; eassumption|].
  destruct (match sk_channeling s with COne c => Some c | _ => None end); [injection H as <-; exact F1|].
  destruct (smem (sk_name s) allow); [|injection H as <-; exact F1].
  destruct (ext_pos (ext_subz uses 1)); [eapply IH; eassumption | injection H as <-; exact F1].
Qed.
(** A channel is cut no later than the next channeling use. *)
Lemma cut_time_le allow l : forall uses u,
  StronglySorted (fun a b => ch_time a <= ch_time b) l -> In u l -> channels u <> None ->
  exists t', cut_time allow uses l = Some t' /\ t' <= ch_time u.
Proof.
  induction l as [|[[t1 s] m] l IH]; intros uses u S I C; [destruct I|].
  inversion S as [|? ? S1 S2]; subst.
  assert (U1 : t1 <= ch_time u).
  { destruct I as [<-|I]; [cbn; lia|]. rewrite Forall_forall in S2. apply (S2 u I). }
  cbn [cut_time channels]. destruct (is_wait s) eqn:W.
  - destruct I as [<-|I]; [exfalso; apply C; cbn; rewrite W; reflexivity | apply IH; assumption].
  - destruct (sk_channeling s) eqn:Cs.
    + destruct I as [<-|I]; [exfalso; apply C; cbn; rewrite W, Cs; reflexivity|].
      destruct (smem (sk_name s) allow); [|eauto]. destruct (ext_pos (ext_subz uses 1)); [apply IH; assumption | eauto].
    + eauto.
    + destruct I as [<-|I]; [exfalso; apply C; cbn; rewrite W, Cs; reflexivity|].
      destruct (smem (sk_name s) allow); [|eauto]. destruct (ext_pos (ext_subz uses 1)); [apply IH; assumption | eauto].
Qed.

Lemma windows_of_in l w : In w (windows_of l) ->
  exists a u b c, l = (a ++ u :: b)%list /\ channels u = Some c /\ w = (ch_time u, channel_end (ch_time u) c b).
Proof.
  induction l as [|u l IH]; cbn [windows_of]; [intros []|]. intros H.
  destruct (channels u) as [c|] eqn:C.
  - destruct H as [<-|H]; [exists [], u, l, c; auto|].
    destruct (IH H) as (a & u' & b & c' & -> & ? & ?). exists (u :: a), u', b, c'. auto.
  - destruct (IH H) as (a & u' & b & c' & -> & ? & ?). exists (u :: a), u', b, c'. auto.
Qed.

Lemma channel_end_le t c l : ext_le (channel_end t c l) (ext_add (Fin t) (ch_duration c)).
Proof.
  unfold channel_end. destruct (cut_time _ _ _); destruct (ch_duration c); cbn; trivial; lia.
Qed.
Lemma channel_end_ge t c l : Forall (fun u => t <= ch_time u) l ->
  match ch_duration c with Fin d => 0 <= d | Inf => True end -> ext_le (Fin t) (channel_end t c l).
Proof.
  intros F D. unfold channel_end. destruct (cut_time _ _ _) eqn:E.
  - eapply cut_time_ge in E; [|exact F]. destruct (ch_duration c); cbn; lia.
  - destruct (ch_duration c); cbn; trivial; lia.
Qed.
Lemma channel_end_next t c l u :
  StronglySorted (fun a b => ch_time a <= ch_time b) l -> In u l -> channels u <> None ->
  ext_le (channel_end t c l) (Fin (ch_time u)).
Proof.
  intros S I C. unfold channel_end. destruct (cut_time_le (ch_allowlist c) l (ch_num_uses c) u S I C) as (t' & -> & L).
  destruct (ch_duration c); cbn; lia.
Qed.

Lemma windows_disjoint l : StronglySorted (fun a b => ch_time a <= ch_time b) l ->
  StronglySorted window_before (windows_of l).
Proof.
  intros S. induction S as [|u l S IH F]; cbn [windows_of]; [constructor|].
  destruct (channels u) as [c|]; [|exact IH]. constructor; [exact IH|].
  apply Forall_forall. intros w Hw. apply windows_of_in in Hw as (a & u' & b & c' & -> & C & ->).
  unfold window_before. cbn [fst snd]. apply channel_end_next; [exact S | | congruence].
  apply in_app_iff. right. left. reflexivity.
Qed.
Lemma windows_nonempty l : StronglySorted (fun a b => ch_time a <= ch_time b) l -> Forall nonneg_duration l ->
  Forall (fun w => ext_le (Fin (fst w)) (snd w)) (windows_of l).
Proof.
  intros S N. apply Forall_forall. intros w Hw. apply windows_of_in in Hw as (a & u & b & c & -> & C & ->).
  cbn [fst snd]. apply StronglySorted_app in S as (_ & S & _). inversion S; subst.
  apply channel_end_ge; [assumption|]. rewrite Forall_forall in N. apply (N u); [apply in_app_iff; right; left; reflexivity | exact C].
Qed.

Lemma ext_le_trans a b c : ext_le a b -> ext_le b c -> ext_le a c.
Proof. destruct a, b, c; cbn; lia. Qed.

Lemma channel_run_ordered l :
  Forall (fun u => is_wait (snd (fst u)) = true \/ ch_plain u) l ->
  StronglySorted (fun a b => ch_time a <= ch_time b) l -> Forall nonneg_duration l ->
  channel_run l = Ok (windows_of l).
Proof.
  intros F S N. rewrite channel_run_eq by exact F. f_equal. apply sort_lt_id.
  pose proof (windows_disjoint l S) as D. pose proof (windows_nonempty l S N) as W.
  induction D as [|w ws D IH Fw]; [constructor|]. inversion W as [|? ? W1 W2]; subst.
  constructor; [apply IH, W2|]. apply Forall_forall. intros w' Hw'. rewrite Forall_forall in Fw, W2.
  specialize (Fw w' Hw'). specialize (W2 w' Hw'). unfold ok_before, window_ltb, window_before in *.
  destruct w as [a e], w' as [a' e']. cbn [fst snd] in *.
  destruct e as [x|]; cbn in *; [|tauto]. destruct e' as [y|]; cbn in *; lia.
Qed.

(** ** Refutations *)

Definition cx_gain (refresh : bool) : skill :=
  mkSkill "Gain" CNone CNone CNone CNone CNone (TTuple [mkJr "Gauge" (Change 5) Inf refresh false]) (TTuple []) []
    false [] true (TTuple []) "".
Definition cx_settings : dict jr_settings := [("Gauge"%string, mkJrSettings 10 ["Spend"%string] (Fin 10000) true)].

Lemma refresh_at_zero_refuted :
  ~ (forall settings ops tr t n cfg,
       foldM jr_apply ops (jr_init settings) = Ok tr -> settings = [(n, cfg)] ->
       run_out cfg (sort_by je_start (jr_history n ops)) t ->
       forall skill_name, snd (compile_job_resources tr t skill_name) = ""%string).
Proof.
  intros H.
  destruct (foldM jr_apply [JrAdd 0 (cx_gain true) default_modifier] (jr_init cx_settings)) as [tr|] eqn:E; [|vm_compute in E; discriminate].
  specialize (H cx_settings _ tr 20000 "Gauge"%string _ E eq_refl).
  assert (R : run_out (mkJrSettings 10 ["Spend"%string] (Fin 10000) true)
                (sort_by je_start (jr_history "Gauge" [JrAdd 0 (cx_gain true) default_modifier])) 20000).
  { exists 0. vm_compute. auto. }
  specialize (H R "Spend"%string). vm_compute in E. injection E as <-. vm_compute in H. discriminate.
Qed.

Lemma future_entry_refuted :
  ~ (forall settings ops op tr tr' t skill_name,
       foldM jr_apply ops (jr_init settings) = Ok tr ->
       jr_apply tr op = Ok tr' ->
       (forall t0 s m, op = JrAdd t0 s m -> t < t0) ->
       snd (compile_job_resources tr' t skill_name) = snd (compile_job_resources tr t skill_name)).
Proof.
  intros H.
  destruct (foldM jr_apply [JrAdd 1000 (cx_gain true) default_modifier] (jr_init cx_settings)) as [tr|] eqn:E; [|vm_compute in E; discriminate].
  destruct (jr_apply tr (JrAdd 20000 (cx_gain true) default_modifier)) as [tr'|] eqn:E2; [|vm_compute in E; injection E as <-; vm_compute in E2; discriminate].
  specialize (H cx_settings _ _ _ _ 5000 "Spend"%string E E2).
  vm_compute in E. injection E as <-. vm_compute in E2. injection E2 as <-. vm_compute in H.
  assert (X : "5 Gauge"%string = ""%string); [|discriminate]. symmetry. apply H.
  intros t0 s m Q0. injection Q0 as <- _ _. reflexivity.
Qed.

Lemma resource_amount_spec settings ops tr t n cfg :
  NoDup (dkeys settings) -> foldM jr_apply ops (jr_init settings) = Ok tr ->
  dget n settings = Some cfg ->
  exists amount before since,
    since_run_out cfg (sort_by je_start (jr_history n ops)) before since
    /\ (run_out cfg (sort_by je_start (jr_history n ops)) t
        /\ refreshed_at (sort_by je_start (jr_history n ops)) <> Some 0 -> amount = 0)
    /\ (~ (run_out cfg (sort_by je_start (jr_history n ops)) t
           /\ refreshed_at (sort_by je_start (jr_history n ops)) <> Some 0) ->
        amount = clamped_sum (jrs_max cfg) (filter (jr_active t) since))
    /\ 0 <= amount <= Z.max 0 (jrs_max cfg)
    /\ amount = resource_total cfg t (sort_by je_start (jr_history n ops)).
Proof.
  intros N H G. exists (resource_total cfg t (sort_by je_start (jr_history n ops))).
  destruct (resource_total_spec cfg t (sort_by je_start (jr_history n ops))) as (l1 & l2 & S & H1 & H2).
  exists l1, l2. repeat (split; [assumption|]). split; [apply resource_total_bounds | reflexivity].
Qed.

(** Everything together for one window. *)
Lemma channel_windows_spec l ws :
  Forall (fun u => is_wait (snd (fst u)) = true \/ ch_plain u) l ->
  StronglySorted (fun a b => ch_time a <= ch_time b) l -> Forall nonneg_duration l ->
  channel_run l = Ok ws ->
  StronglySorted window_before ws
  /\ StronglySorted (fun a b => fst a <= fst b) ws
  /\ Forall (fun w => ext_le (Fin (fst w)) (snd w)) ws
  /\ (forall w, In w ws -> exists a u b c,
        l = (a ++ u :: b)%list /\ channels u = Some c /\ fst w = ch_time u
        /\ ext_le (snd w) (ext_add (Fin (ch_time u)) (ch_duration c))
        /\ snd w = channel_end (ch_time u) c b)
  /\ List.length ws = List.length (filter (fun u => match channels u with Some _ => true | None => false end) l).
Proof.
  intros F S N H. rewrite (channel_run_ordered l F S N) in H. injection H as <-.
  pose proof (windows_disjoint l S) as D. pose proof (windows_nonempty l S N) as W.
  split; [exact D|]. split.
  - clear - D W. induction D as [|w ws D IH Fw]; [constructor|]. inversion W as [|? ? W1 W2]; subst. constructor; [auto|].
    apply Forall_forall. intros w' Hw'. rewrite Forall_forall in Fw. specialize (Fw _ Hw'). unfold window_before in Fw.
    destruct (snd w); cbn in *; lia.
  - split; [exact W|]. split.
    + intros w Hw. apply windows_of_in in Hw as (a & u & b & c & E & C & ->). exists a, u, b, c.
      repeat (split; [assumption || reflexivity|]). split; [apply channel_end_le | reflexivity].
    + clear. induction l as [|u l IH]; [reflexivity|]. cbn [windows_of filter].
      destruct (channels u); cbn [List.length]; rewrite IH; reflexivity.
Qed.

(** ** The trackers of a run *)
Lemma trackers_told lib job prio tk :
  new_trackers lib job prio = Ok tk ->
  (forall h, combo_view (tk_combo tk) h = None) /\ get_all_combo_breakers lib job = Ok (ct_breakers (tk_combo tk))
  /\ exists settings, get_all_resource_settings lib job = Ok settings /\ tk_jr tk = jr_init settings.
Proof.
  unfold new_trackers. intros E. apply bind_ok in E as (rs & R & E). apply bind_ok in E as (br & B & E). injection E as <-.
  split; [reflexivity|]. split; [exact B|]. exists rs. split; [exact R|reflexivity].
Qed.
