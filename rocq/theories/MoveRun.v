(** * A whole run moves with its presses *)

From Coq Require Import ZArith QArith Qround List String Bool Lia Setoid Permutation.
From Verif Require Import Base BaseFacts Float FloatFacts Heap Strings Types Lookup Stats Library StatusEffect JobResource Combo Channeling
  Events Rotation DamageBuild Damage Relabel TimelineFacts DamageRun AutoProps SpecTimeline SpecMove MoveFacts.
Import ListNotations.
Open Scope string_scope.
Open Scope Z_scope.

(** Downtime brings in no damage. *)
Lemma none_left W qu qu' :
  get_first_damage_time qu = Ok None -> remove_damage_during_downtime W qu = Ok qu' ->
  forall e sp, In e (q_heap qu') -> get_damage_spec (ev_skill e) (ev_modifier e) = Ok (Some sp) -> False.
Proof.
  intros F H e sp I S. apply get_first_damage_spec in F. cbv beta iota in F. unfold remove_damage_during_downtime, q_drain in H.
  apply bind_ok in H as (evs & D & H). apply drain_perm in D. apply downtime_fold in H as (evs' & K & H). apply adds_bag in H.
  apply (in_map anon) in I. apply (Permutation_in _ H) in I. apply in_app_or in I as [[]|I]. rewrite map_map in I.
  apply in_map_iff in I as (x & X & I). destruct (downtimed_in _ _ _ _ K I) as (y & tg & J & ->).
  assert (JJ : In y (q_heap qu)) by (apply (Permutation_in _ (Permutation_sym D)); exact J).
  apply (F y (damage_class sp) JJ). exists sp. split; [|reflexivity].
  pose proof (f_equal ev_skill X) as X1. pose proof (f_equal ev_modifier X) as X2. cbn in X1, X2. rewrite X1, X2. exact S.
Qed.
Lemma mapM_map2 {A B C D} (f : A -> res B) (g : C -> res D) (k : A -> C) (h : B -> D) l :
  (forall a, g (k a) = rmap h (f a)) -> mapM g (map k l) = rmap (map h) (mapM f l).
Proof.
  intros H. induction l as [|x l IH]; [reflexivity|]. cbn [mapM map]. rewrite H. destruct (f x) as [y|]; [|reflexivity].
  cbn [rmap bind]. rewrite IH. destruct (mapM f l); reflexivity.
Qed.

Section Move.
Variable d : Z.

(** ** The speed timeline *)
Definition mark_later (x : Z * skill) : Z * skill := (fst x + d, snd x).
Lemma event_ltb_later a b : event_ltb (event_later d a) (event_later d b) = event_ltb a b.
Proof. pose proof (event_lt_later d a b) as H. unfold event_lt in H. congruence. Qed.
Lemma get_q_later qu : get_q (queue_later d qu) = map (event_later d) (get_q qu).
Proof. unfold get_q. cbn [queue_later q_heap]. apply sort_lt_map, event_ltb_later. Qed.
Lemma speed_later qu : speed_timeline (queue_later d qu) = rmap (map mark_later) (speed_timeline qu).
Proof.
  unfold speed_timeline. rewrite get_q_later.
  rewrite (mapM_map2 (fun e => let* bs := get_buff_spec (ev_skill e) (ev_modifier e) in
              let* ds := get_debuff_spec (ev_skill e) (ev_modifier e) in
              Ok (if has_speed bs || has_speed ds then [(ev_time e, ev_skill e)] else [])) _ _ (map mark_later)).
  - destruct (mapM _ (get_q qu)) as [l|]; [|reflexivity]. cbn [rmap bind]. f_equal. rewrite <- concat_map.
    apply (sort_by_map d mark_later fst fst). reflexivity.
  - intros e. rewrite ev_time_later. cbn [event_later ev_skill ev_modifier].
    destruct (get_buff_spec _ _) as [bs|]; [|reflexivity]. cbn [bind]. destruct (get_debuff_spec _ _) as [ds|]; [|reflexivity].
    cbn [bind rmap]. destruct (has_speed bs || has_speed ds); reflexivity.
Qed.
Lemma last_mark l a : snd (last (map mark_later l) (0, a)) = snd (last l (0, a)).
Proof. induction l as [|x l IH]; [reflexivity|]. cbn [map last]. destruct l; [reflexivity|exact IH]. Qed.
Lemma effects_later b b' tl t au tg :
  b_library b' = b_library b -> b_stats b' = b_stats b -> b_priority b' = b_priority b ->
  applicable_effects b' (map mark_later tl) (t + d) au tg = applicable_effects b tl t au tg.
Proof.
  intros E1 E2 E3. unfold applicable_effects. rewrite E1, E2, E3. cbv zeta.
  rewrite (filter_map2 mark_later _ (fun x => fst x <=? t)) by (intros x; apply leb_later).
  set (evs := filter _ tl). destruct (get_all_resource_settings _ _) as [rs|]; [|reflexivity]. cbn [bind].
  set (h := fun x : se_tracker * jr_tracker => (se_later d (fst x), jr_later d (snd x))).
  assert (I : (se_init (b_priority b), jr_init rs) = h (se_init (b_priority b), jr_init rs)).
  { unfold h. cbn [fst snd]. f_equal. unfold jr_later, jr_init, dmap. rewrite map_map. reflexivity. }
  rewrite I at 1.
  rewrite (foldM_map2 (fun (st : se_tracker * jr_tracker) (x : Z * skill) => let (se, jr) := st in
       let* se' := add_to_status_effects (expire_status_effects (fst x) se) (fst x) (snd x) default_modifier tg in
       let* jr' := add_resource jr (fst x) (snd x) default_modifier in Ok (se', jr')) _ h mark_later (fun _ => True)); [|clear|trivial|trivial].
  - destruct (foldM _ evs _) as [[se jr]|]; [|reflexivity]. cbn [rmap bind h fst snd]. rewrite last_mark, expire_later, compile_buffs_later.
    destruct (compile_buffs _ t _) as [[se2 [bu c]]|]; [|reflexivity]. cbn [rmap bind on_se fst snd]. rewrite compile_debuffs_later.
    destruct (compile_debuffs se2 t _ _) as [[se3 [de c']]|]; reflexivity.
  - intros [se jr] x _. unfold h. cbn [fst snd mark_later]. rewrite expire_later, add_status_later.
    destruct (add_to_status_effects _ _ _ _ _) as [se'|]; [|reflexivity]. cbn [rmap bind]. rewrite add_resource_later.
    destruct (add_resource _ _ _ _); reflexivity.
Qed.

(** ** Casts and channeling *)
Definition span_later (x : Z * ext) : Z * ext := (fst x + d, ext_later d (snd x)).
Definition ch_later (c : ch_tracker) : ch_tracker :=
  mkCh (map span_later (ch_windows c)) (option_map (fun x => let '(t, sp, u) := x in (t + d, sp, u)) (ch_current c)) (ch_final c).
Lemma end_later c s sp t : end_channeling (ch_later c) (s + d) sp (t + d) = ch_later (end_channeling c s sp t).
Proof.
  unfold end_channeling, ch_later. cbn [ch_windows ch_current ch_final option_map]. rewrite map_app. f_equal. f_equal. cbn [map].
  unfold span_later. cbn [fst snd]. f_equal. f_equal. destruct (ch_duration sp); cbn; f_equal; lia.
Qed.
Lemma start_later c t sp : start_channeling (ch_later c) (t + d) sp = rmap ch_later (start_channeling c t sp).
Proof. unfold start_channeling. destruct c as [w [x|] f]; reflexivity. Qed.
Lemma channeling_later c t s m : process_channeling (ch_later c) (t + d) s m = rmap ch_later (process_channeling c t s m).
Proof.
  unfold process_channeling. change (ch_final (ch_later c)) with (ch_final c). destruct (ch_final c); [reflexivity|].
  destruct (contains _ _); [reflexivity|]. destruct (get_channeling_spec s m) as [[sp|]|]; [| |reflexivity]; cbn [bind].
  - destruct c as [w [[[s0 cur] u]|] f]; cbn [ch_later ch_windows ch_current ch_final option_map].
    + rewrite <- start_later, <- end_later. reflexivity.
    + exact (start_later (mkCh w None f) t sp).
  - destruct c as [w [[[s0 cur] u]|] f]; cbn [ch_later ch_windows ch_current ch_final option_map]; [|reflexivity].
    destruct (smem _ _); [destruct (ext_pos _); [reflexivity|]|];
      cbn [rmap]; rewrite <- end_later; reflexivity.
Qed.
Lemma ext_ltb_later a b : ext_ltb (ext_later d a) (ext_later d b) = ext_ltb a b.
Proof. destruct a, b; cbn; try reflexivity. apply ltb_later. Qed.
Lemma window_ltb_later a b : window_ltb (span_later a) (span_later b) = window_ltb a b.
Proof. unfold window_ltb, span_later. cbn [fst snd]. rewrite ltb_later, eqb_later, ext_ltb_later. reflexivity. Qed.
Lemma finalize_later c : ch_finalize (ch_later c) = rmap ch_later (ch_finalize c).
Proof.
  unfold ch_finalize. change (ch_final (ch_later c)) with (ch_final c). destruct (ch_final c); [reflexivity|]. cbv zeta. cbn [rmap]. f_equal.
  unfold ch_later at 4. cbn [ch_windows ch_current ch_final option_map]. f_equal.
  rewrite <- (sort_lt_map span_later window_ltb window_ltb window_ltb_later). f_equal.
  destruct c as [w [[[s0 cur] u]|] f]; cbn [ch_later ch_windows ch_current option_map]; [|reflexivity].
  rewrite map_app. cbn [map]. unfold span_later at 2. cbn [fst snd]. rewrite add_later. reflexivity.
Qed.

Variables b b' : builder.
Hypothesis M : presses_moved d b b'.
Hypothesis P : plain_dots b.
Hypothesis R : lasting_resources (b_library b) (st_job (b_stats b)).

Definition on_casts (x : trackers * ch_tracker * list (Z * ext)) : trackers * ch_tracker * list (Z * ext) :=
  (tk_later d (fst (fst x)), ch_later (snd (fst x)), map span_later (snd x)).
Lemma no_auto_later x y :
  tk_lasting (fst (fst x)) -> no_auto_step b' (on_casts x) (asked_later d y) = rmap on_casts (no_auto_step b x y).
Proof.
  destruct x as [[tk ch] casts]. cbn [fst snd]. intros L. unfold no_auto_step, on_casts at 1. cbn [fst snd]. cbv zeta.
  destruct M as (E1 & E2 & E3 & E4 & E5 & E8 & E9 & _). rewrite E1, E8.
  cbn [asked_later tm_time tm_skill tm_modifier]. rewrite channeling_later.
  destruct (process_channeling _ _ _ _) as [ch'|]; [|reflexivity]. cbn [rmap bind]. rewrite compile_press_later by exact L.
  destruct (compile_press _ _ _ _) as [[[[tk1 m1] bu] de]|]; [|reflexivity]. cbn [rmap bind on_press].
  destruct (get_timing_spec _ m1) as [ts|]; [|reflexivity]. cbn [bind]. destruct (get_cast_time _ _ _ _) as [cast|]; [|reflexivity]. cbn [bind].
  cbn [tk_later tk_se tk_jr tk_combo]. rewrite add_status_later. destruct (add_to_status_effects _ _ _ _ _) as [se|]; [|reflexivity]. cbn [rmap bind].
  rewrite add_resource_later. destruct (add_resource _ _ _ _) as [jr|]; [|reflexivity]. cbn [rmap bind]. unfold on_casts. cbn [fst snd]. f_equal.
  apply f_equal2; [reflexivity|]. destruct (0 <? cast); [|reflexivity]. rewrite map_app. cbn [map]. unfold span_later at 3. cbn [fst snd ext_later].
  do 4 f_equal. lia.
Qed.
Lemma no_auto_lasting x y x' : tk_lasting (fst (fst x)) -> no_auto_step b x y = Ok x' -> tk_lasting (fst (fst x')).
Proof.
  destruct x as [[tk ch] casts]. cbn [fst snd]. intros L E. unfold no_auto_step in E. cbv zeta in E.
  apply bind_ok in E as (ch' & _ & E). apply bind_ok in E as ([[[tk1 m1] bu] de] & C & E). apply bind_ok in E as (ts & _ & E).
  apply bind_ok in E as (cast & _ & E). apply bind_ok in E as (se & _ & E). apply bind_ok in E as (jr & J & E). injection E as <-.
  cbn [fst snd]. eapply add_resource_lasting; [|exact J]. eapply compile_press_lasting; [exact L|exact C].
Qed.
Lemma periods_later : get_no_auto_periods b' = rmap (map span_later) (get_no_auto_periods b).
Proof.
  unfold get_no_auto_periods. destruct M as (E1 & E2 & E3 & E4 & E5 & E8 & E9 & E10 & _). rewrite E1, E2, E9, E10.
  destruct (new_trackers (b_library b) (st_job (b_stats b)) (b_priority b)) as [tk|] eqn:T; [|reflexivity]. cbn [bind]. rewrite map_length.
  rewrite (drain_map (asked_later d) timed_lt timed_lt (timed_lt_later d)).
  destruct (drain timed_lt _ (b_timed b)) as [o|]; [|reflexivity]. cbn [rmap bind].
  assert (I : (tk, ch_init, @nil (Z * ext)) = on_casts (tk, ch_init, [])).
  { unfold on_casts. cbn [fst snd]. rewrite (new_trackers_later d _ _ _ _ T). reflexivity. }
  rewrite I at 1.
  rewrite (foldM_map2 (no_auto_step b) (no_auto_step b') on_casts (asked_later d) (fun x => tk_lasting (fst (fst x))));
    [|intros; apply no_auto_later; assumption|exact no_auto_lasting|exact (new_trackers_lasting _ _ _ _ R T)].
  destruct (foldM (no_auto_step b) o _) as [[[tk2 ch] casts]|]; [|reflexivity]. cbn [rmap bind on_casts fst snd]. rewrite finalize_later.
  destruct (ch_finalize ch) as [c|]; [|reflexivity]. cbn [rmap bind]. unfold get_channeling_windows. change (ch_final (ch_later c)) with (ch_final c).
  destruct (ch_final c); [|reflexivity]. cbn [bind rmap]. f_equal. cbn [ch_later ch_windows]. rewrite <- map_app. apply sort_lt_map, window_ltb_later.
Qed.

(** ** Downtime windows *)
Lemma qle_later x y x' y' : (x' == x + inject_Z d)%Q -> (y' == y + inject_Z d)%Q -> Qle_bool x' y' = Qle_bool x y.
Proof.
  intros X Y. apply eq_true_iff_eq. rewrite !Qle_bool_iff, X, Y. apply Qplus_le_l.
Qed.
Lemma q_later t : (q (t + d) == q t + inject_Z d)%Q.
Proof. unfold q. rewrite inject_Z_plus. reflexivity. Qed.
Lemma in_window_later w w' t : window_moved d w w' -> in_window w' (q (t + d)) = in_window w (q t).
Proof.
  intros (S & E & _). unfold in_window, qltb. rewrite (qle_later _ _ _ _ S (q_later t)), (qle_later _ _ _ _ E (q_later t)). reflexivity.
Qed.
Lemma hits_later w w' c : window_moved d w w' -> window_hits w' c = window_hits w c.
Proof. intros (_ & _ & C). unfold window_hits. rewrite C. reflexivity. Qed.
Lemma forward_later l l' t : Forall2 (window_moved d) l l' -> (forward_downtime l' (t + d) == forward_downtime l t + inject_Z d)%Q.
Proof.
  intros F. induction F as [|w w' l l' W F IH]; cbn [forward_downtime]; [apply q_later|].
  rewrite (in_window_later _ _ t W), (hits_later _ _ DC_AUTO W). destruct (in_window w (q t) && window_hits w DC_AUTO); [apply W|exact IH].
Qed.
Lemma floor_later x x' : (x' == x + inject_Z d)%Q -> Qfloor x' = Qfloor x + d.
Proof.
  intros E. rewrite E. apply Z.le_antisymm.
  - apply Z.lt_succ_r. rewrite Zlt_Qlt. apply Qle_lt_trans with (x + inject_Z d)%Q; [apply Qfloor_le|].
    unfold Z.succ. rewrite <- Z.add_assoc, (Z.add_comm d 1), Z.add_assoc, inject_Z_plus. apply Qplus_lt_l. apply Qlt_floor.
  - rewrite <- (Qfloor_Z (Qfloor x + d)). apply Qfloor_resp_le. rewrite inject_Z_plus. apply Qplus_le_l. apply Qfloor_le.
Qed.
Lemma as_int_later x x' : (x' == x + inject_Z d)%Q -> as_int x' = rmap (fun z => z + d) (as_int x).
Proof.
  intros E. unfold as_int, ffloor. rewrite (floor_later _ _ E).
  assert (Q : Qeq_bool (inject_Z (Qfloor x + d)) x' = Qeq_bool (inject_Z (Qfloor x)) x).
  { apply eq_true_iff_eq. rewrite !Qeq_bool_iff, E, inject_Z_plus. apply Qplus_inj_r. }
  rewrite Q. destruct (Qeq_bool _ x); reflexivity.
Qed.
Lemma ext_max_later x y : ext_max (ext_later d x) (ext_later d y) = ext_later d (ext_max x y).
Proof. destruct x, y; cbn; try reflexivity. f_equal. lia. Qed.
Lemma next_auto_later l l' ps t :
  Forall2 (window_moved d) l l' -> next_auto_time l' (map span_later ps) (t + d) = rmap (ext_later d) (next_auto_time l ps t).
Proof.
  intros F. unfold next_auto_time. rewrite (as_int_later _ _ (forward_later _ _ t F)).
  destruct (as_int (forward_downtime l t)) as [t1|]; [|reflexivity]. cbn [rmap bind].
  rewrite (filter_map2 span_later _ (fun x => (fst x <=? t1) && z_le_ext t1 (snd x))).
  - destruct (filter _ ps) as [|x l0]; [reflexivity|]. cbn [map rmap]. f_equal. cbn [span_later snd].
    rewrite !map_map. cbn [span_later snd]. rewrite <- (map_map snd (ext_later d)). apply fold_left_map2. intros; apply ext_max_later.
  - intros [s e]. unfold span_later, z_le_ext. cbn [fst snd]. rewrite leb_later, gt_later. reflexivity.
Qed.
Definition dict_moved (x y : dict (list window)) : Prop :=
  Forall2 (fun a b => fst b = fst a /\ Forall2 (window_moved d) (snd a) (snd b)) x y.
Lemma windows_for_later w w' tg : windows_moved d w w' -> Forall2 (window_moved d) (windows_for w tg) (windows_for w' tg).
Proof.
  destruct w as [l|x], w' as [l'|y]; cbn [windows_moved windows_for]; try tauto.
  intros F. induction F as [|[k l] [k' l'] x y [K L] F IH]; [constructor|]. cbn [fst snd] in *. subst k'. cbn [dget].
  destruct (String.eqb tg k); [exact L|exact IH].
Qed.
Lemma filtered_later w w' t tg c : windows_moved d w w' -> filtered w' (t + d) tg c = filtered w t tg c.
Proof.
  intros W. unfold filtered. pose proof (windows_for_later _ _ tg W) as F. induction F as [|r r' l l' X F IH]; [reflexivity|].
  cbn [existsb]. rewrite (in_window_later _ _ t X), (hits_later _ _ c X), IH. reflexivity.
Qed.
Lemma keep_later w w' e tg : windows_moved d w w' -> keep_target w' (event_later d e) tg = keep_target w e tg.
Proof.
  intros W. unfold keep_target. rewrite ev_time_later. cbn [event_later ev_skill ev_modifier ev_primary].
  destruct (get_damage_spec _ _) as [[sp|]|]; [|reflexivity|reflexivity]. cbn [bind]. rewrite !(filtered_later _ _ _ _ _ W). reflexivity.
Qed.
Lemma filterM_ext {A} (f g : A -> res bool) l : (forall a, f a = g a) -> filterM f l = filterM g l.
Proof. intros H. induction l as [|x l IH]; [reflexivity|]. cbn [filterM]. rewrite H, IH. reflexivity. Qed.
Lemma downtime_later w w' qu e :
  windows_moved d w w' -> downtime_event w' (queue_later d qu) (event_later d e) = rmap (queue_later d) (downtime_event w qu e).
Proof.
  intros W. unfold downtime_event. change (ev_targets (event_later d e)) with (ev_targets e).
  rewrite (filterM_ext _ (keep_target w e)) by (intros; apply keep_later, W).
  destruct (filterM _ _) as [[|x v]|]; [reflexivity| |reflexivity]. cbn [bind].
  apply q_add_new_later; [reflexivity|reflexivity|]. cbn [event_later ev_secondary]. destruct (ev_secondary e); reflexivity.
Qed.
Lemma remove_later w w' qu :
  windows_moved d w w' -> remove_damage_during_downtime w' (queue_later d qu) = rmap (queue_later d) (remove_damage_during_downtime w qu).
Proof.
  intros W. unfold remove_damage_during_downtime, q_drain. change (q_heap (queue_later d qu)) with (map (event_later d) (q_heap qu)).
  rewrite map_length, (drain_map (event_later d) event_lt event_lt (event_lt_later d)).
  destruct (drain event_lt _ (q_heap qu)) as [evs|]; [|reflexivity]. cbn [rmap bind]. change q_init with (queue_later d q_init) at 1.
  apply (foldM_map2 (downtime_event w) (downtime_event w') (queue_later d) (event_later d) (fun _ => True)); [|trivial|trivial].
  intros a e _. apply downtime_later, W.
Qed.

(** ** Autos *)
Lemma shorten_from_later c l : shorten_from c (map (stamp_later d) l) = map (stamp_later d) (shorten_from c l).
Proof.
  revert c; induction l as [|x l IH]; intros c; [reflexivity|]. cbn [map shorten_from]. cbn [stamp_later snd].
  destruct (String.eqb (snd x) c); [apply IH|]. cbn [map]. f_equal. apply IH.
Qed.
Lemma advance_later l n t : advance (map (stamp_later d) l) n (t + d) = advance l n t.
Proof. revert n; induction l as [|x l IH]; intros n; [reflexivity|]. cbn [map advance stamp_later fst]. rewrite leb_later. destruct (fst x <=? t); [apply IH|reflexivity]. Qed.
Lemma skipn_map2 {A B} (f : A -> B) n l : skipn n (map f l) = map f (skipn n l).
Proof. revert l; induction n as [|n IH]; intros [|x l]; try reflexivity. apply IH. Qed.
Lemma loop_later W W' stamps au delay wd last : windows_moved d W W' -> forall fuel qu sn ind,
  auto_loop fuel (with_windows b' W') (map (stamp_later d) stamps) au delay wd (last + d) (queue_later d qu) (sn + d) ind
  = rmap (queue_later d) (auto_loop fuel (with_windows b W) stamps au delay wd last qu sn ind).
Proof.
  intros HW. destruct M as (E1 & E2 & E3 & E4 & E5 & E8 & E9 & E10 & _).
  induction fuel as [|n IH]; intros qu sn ind; cbn [auto_loop]; cbv zeta; rewrite <- Z.add_assoc, (Z.add_comm d delay), Z.add_assoc, ltb_later.
  - destruct (negb _); reflexivity.
  - destruct (negb _); [reflexivity|]. rewrite skipn_map2, advance_later, nth_error_map. set (ind' := Nat.pred _).
    destruct (nth_error stamps ind') as [[z tg]|]; [|reflexivity]. cbn [option_map stamp_later fst snd of_option bind].
    rewrite (q_add_new_later d qu (time_to_prio sn) sn (Some (sn + delay))); [|apply prio_later|reflexivity|reflexivity].
    destruct (q_add_new qu _ _ _ _ _ _ _) as [qu'|]; [|reflexivity]. cbn [rmap bind]. rewrite speed_later.
    destruct (speed_timeline qu') as [tl|]; [|reflexivity]. cbn [rmap bind with_windows b_default_target b_stats]. rewrite E8, E1.
    rewrite (effects_later (with_windows b W) (with_windows b' W')); [|exact E2|exact E1|exact E9].
    destruct (applicable_effects _ _ _ _ _) as [[bu de]|]; [|reflexivity]. cbn [bind].
    change (get_no_auto_periods (with_windows b' W')) with (get_no_auto_periods b').
    change (get_no_auto_periods (with_windows b W)) with (get_no_auto_periods b). rewrite periods_later.
    destruct (get_no_auto_periods b) as [ps|]; [|reflexivity]. cbn [rmap bind with_windows b_windows].
    set (step := truncate_to_digit2 _). replace (sn + d + step) with (sn + step + d) by lia.
    rewrite (next_auto_later _ _ ps (sn + step) (windows_for_later _ _ tg HW)).
    destruct (next_auto_time _ _ _) as [[t|]|]; [|reflexivity|reflexivity]. cbn [rmap bind ext_later]. apply IH.
Qed.
Lemma first_later qu : get_first_damage_time (queue_later d qu) = rmap (option_map (fun z => z + d)) (get_first_damage_time qu).
Proof.
  unfold get_first_damage_time. change (@None Z) with (option_map (fun z => z + d) (@None Z)) at 1.
  apply (foldM_map2 first_damage_step first_damage_step (option_map (fun z => z + d)) (event_later d) (fun _ => True)); [|trivial|trivial].
  intros a e _. unfold first_damage_step. rewrite ev_time_later. cbn [event_later ev_skill ev_modifier].
  destruct (get_damage_spec _ _) as [[sp|]|]; [|reflexivity|reflexivity]. cbn [bind rmap]. f_equal. destruct a; cbn [option_map]; f_equal. lia.
Qed.
Lemma last_later_q qu : get_last_event_time (queue_later d qu) = option_map (fun z => z + d) (get_last_event_time qu).
Proof.
  unfold get_last_event_time. change (@None Z) with (option_map (fun z => z + d) (@None Z)) at 1.
  apply (fold_left_map2 (fun acc e => Some (match acc with None => ev_time e | Some t => Z.max (ev_time e) t end))).
  intros a e. rewrite ev_time_later. destruct a; cbn [option_map]; f_equal. lia.
Qed.
Lemma autos_later W W' stamps qu :
  windows_moved d W W' ->
  add_autos (with_windows b' W') (map (stamp_later d) stamps) None (queue_later d qu)
  = rmap (queue_later d) (add_autos (with_windows b W) stamps None qu).
Proof.
  intros HW. unfold add_autos. cbv zeta. rewrite (sort_by_map d _ fst) by reflexivity.
  destruct (sort_by fst stamps) as [|x l]; [reflexivity|]. cbn [map shorten_sequence bind]. change (snd (stamp_later d x)) with (snd x).
  rewrite shorten_from_later. cbn [with_windows b_stats b_library].
  pose proof M as (E1 & E2 & _). rewrite E1, E2. destruct (auto_skill_of _ _) as [au|]; [|reflexivity]. cbn [bind]. rewrite first_later.
  destruct (get_first_damage_time qu) as [[f|]|]; [|reflexivity|reflexivity]. cbn [rmap bind option_map of_option].
  destruct (auto_delay_of au) as [delay|]; [|reflexivity]. cbn [bind]. rewrite last_later_q.
  destruct (get_last_event_time qu) as [la|]; [|reflexivity]. cbn [option_map of_option bind].
  replace (auto_fuel (f + d + delay) (la + d)) with (auto_fuel (f + delay) la) by (unfold auto_fuel; f_equal; f_equal; f_equal; lia).
  change (stamp_later d x :: map (stamp_later d) (shorten_from (snd x) l)) with (map (stamp_later d) (x :: shorten_from (snd x) l)).
  apply loop_later, HW.
Qed.

(** ** The run *)
Lemma process_windows_later : windows_moved d (b_windows b) (b_windows b') -> windows_moved d (process_downtime_windows b) (process_downtime_windows b').
Proof.
  intros W. destruct M as (_ & _ & _ & _ & _ & _ & _ & _ & _ & _ & _ & _ & _ & T). unfold process_downtime_windows. rewrite T. clear T.
  destruct (b_windows b) as [l|x], (b_windows b') as [l'|y]; cbn [windows_moved] in *; try tauto.
  induction (b_targets b) as [|k ks IH]; cbn [map]; [constructor|]. constructor; [split; [reflexivity|exact W]|exact IH].
Qed.
Lemma sort_press_later l : sort_by pr_time (map (press_later d) l) = map (press_later d) (sort_by pr_time l).
Proof. apply (sort_by_map d _ pr_time). reflexivity. Qed.

(** The presses, DoTs and autos of a run. *)
Definition body (b : builder) (W : windows) : res (pass * queue) :=
  let* p1 := process_q_sequence (with_windows b W) q_init (b_dots b) [] (b_stamps b) in
  let* p2 := process_q_timed (with_windows b W) (si_queue (pa_sim p1)) (si_dots (pa_sim p1)) (pa_press p1) (pa_stamps p1) in
  let last := if b_ignore_trailing b then get_last_event_time (si_queue (pa_sim p2)) else None in
  let* q3 := process_all_dots (b_snap_dots b) (si_dots (pa_sim p2)) last (si_queue (pa_sim p2)) in
  let* q4 := if b_autos b then add_autos (with_windows b W) (pa_stamps p2) last q3 else Ok q3 in
  Ok (p2, q4).
Definition finish (b : builder) (W : windows) (x : pass * queue) : res builder :=
  let (p2, q4) := x in
  let* (q5, pr) := match b_fight_start b with
                   | None => shift_timelines q4 (pa_press p2)
                   | Some _ => Ok (q4, pa_press p2)
                   end in
  let* q6 := remove_damage_during_downtime W q5 in
  Ok (with_results (with_windows b W) (si_dots (pa_sim p2)) (sort_by pr_time pr) q6 (pa_stamps p2)).
Lemma run_body c : get_skill_timing c = bind (body c (process_downtime_windows c)) (finish c (process_downtime_windows c)).
Proof.
  unfold get_skill_timing, body, finish. cbv zeta.
  change (b_dots (with_windows c (process_downtime_windows c))) with (b_dots c).
  change (b_stamps (with_windows c (process_downtime_windows c))) with (b_stamps c).
  destruct (process_q_sequence _ _ _ _ _) as [p1|]; [|reflexivity]. cbn [bind].
  destruct (process_q_timed _ _ _ _ _) as [p2|]; [|reflexivity]. cbn [bind].
  change (b_ignore_trailing (with_windows c (process_downtime_windows c))) with (b_ignore_trailing c).
  change (b_snap_dots (with_windows c (process_downtime_windows c))) with (b_snap_dots c).
  change (b_autos (with_windows c (process_downtime_windows c))) with (b_autos c).
  destruct (process_all_dots _ _ _ _) as [q3|]; [|reflexivity]. cbn [bind].
  destruct (if b_autos c then _ else _) as [q4|]; reflexivity.
Qed.
Definition on_body (x : pass * queue) : pass * queue := (pass_later d (fst x), queue_later d (snd x)).

Lemma body_later W W' :
  (b_autos b = true -> windows_moved d W W') ->
  ((exists t, b_fight_start b = Some t /\ b_fight_start b' = Some (t + d)) \/ b_sequence b = []) ->
  body b' W' = rmap on_body (body b W).
Proof.
  intros HW ST.
  pose proof M as (E1 & E2 & E3 & E4 & E5 & E8 & E9 & E10 & E11 & E12 & E13 & E14 & E15 & E16).
  pose proof P as (P1 & P2). unfold body. cbv zeta.
  assert (S : process_q_sequence (with_windows b' W') q_init (b_dots b') [] (b_stamps b')
            = rmap (pass_later d) (process_q_sequence (with_windows b W) q_init (b_dots b) [] (b_stamps b))).
  { unfold process_q_sequence. cbn [with_windows b_library b_stats b_priority b_fight_start b_sequence]. rewrite E1, E2, E9, E11, E12, E15.
    destruct (new_trackers _ _ _) as [tk|] eqn:T; [|reflexivity]. cbn [bind].
    destruct ST as [(t0 & E6 & E6')|SQ].
    - rewrite E6, E6'.
      assert (I : mkSeqState (mkPass (mkSim q_init (dots_later d (b_dots b)) tk) [] (map (stamp_later d) (b_stamps b))) (t0 + d) None
                = seq_later d (mkSeqState (mkPass (mkSim q_init (b_dots b) tk) [] (b_stamps b)) t0 None)).
      { unfold seq_later, pass_later, sim_later. cbn [ss_pass ss_t ss_next_gcd pa_sim pa_press pa_stamps si_queue si_dots si_tk map option_map].
        rewrite (new_trackers_later d _ _ _ _ T). reflexivity. }
      rewrite I. pose proof (foldM_map2 (process_seq (b_stats b)) (process_seq (b_stats b)) (seq_later d) (fun x => x) seq_lasting
        (fun a x La => process_seq_later d (b_stats b) a x La) (process_seq_lasting (b_stats b)) (b_sequence b)
        (mkSeqState (mkPass (mkSim q_init (b_dots b) tk) [] (b_stamps b)) t0 None) (new_trackers_lasting _ _ _ _ R T)) as K.
      rewrite map_id in K. rewrite K. clear K. destruct (foldM _ (b_sequence b) _); reflexivity.
    - rewrite SQ. cbn [foldM bind rmap ss_pass]. unfold pass_later, sim_later. cbn [pa_sim pa_press pa_stamps si_queue si_dots si_tk map].
      rewrite (new_trackers_later d _ _ _ _ T). reflexivity. }
  rewrite S. clear S. destruct (process_q_sequence _ _ _ _ _) as [p1|]; [|reflexivity]. cbn [rmap bind].
  assert (T : process_q_timed (with_windows b' W') (si_queue (pa_sim (pass_later d p1))) (si_dots (pa_sim (pass_later d p1)))
                (pa_press (pass_later d p1)) (pa_stamps (pass_later d p1))
            = rmap (pass_later d) (process_q_timed (with_windows b W) (si_queue (pa_sim p1)) (si_dots (pa_sim p1)) (pa_press p1) (pa_stamps p1))).
  { unfold process_q_timed. cbn [with_windows b_library b_stats b_priority b_timed]. rewrite E1, E2, E9, E10.
    destruct (new_trackers _ _ _) as [tk|] eqn:T; [|reflexivity]. cbn [bind]. unfold timed_order. rewrite map_length.
    rewrite (sort_by_map d (asked_later d) tm_time tm_time) by reflexivity. rewrite (drain_map (asked_later d) timed_lt timed_lt (timed_lt_later d)).
    destruct (drain timed_lt _ (sort_by tm_time (b_timed b))) as [o|]; [|reflexivity]. cbn [rmap bind].
    pose proof (foldM_map2 (process_timed (b_stats b)) (process_timed (b_stats b)) (pass_later d) (asked_later d) pass_lasting
      (fun a x La => timed_later d (b_stats b) a x La) (timed_lasting (b_stats b)) o
      (mkPass (mkSim (si_queue (pa_sim p1)) (si_dots (pa_sim p1)) tk) (pa_press p1) (pa_stamps p1)) (new_trackers_lasting _ _ _ _ R T)) as K.
    unfold pass_later at 1 in K. unfold sim_later at 1 in K. cbn [pa_sim pa_press pa_stamps si_queue si_dots si_tk] in K.
    rewrite (new_trackers_later d _ _ _ _ T) in K. exact K. }
  rewrite T. clear T. destruct (process_q_timed _ _ _ _ _) as [p2|]; [|reflexivity]. cbn [rmap bind].
  rewrite E5, P2, E3, P1, E4.
  cbn [pass_later pa_sim pa_press pa_stamps sim_later si_queue si_dots si_tk]. rewrite all_dots_later.
  destruct (process_all_dots None (si_dots (pa_sim p2)) None (si_queue (pa_sim p2))) as [q3|]; [|reflexivity]. cbn [rmap bind].
  destruct (b_autos b); [|reflexivity]. rewrite (autos_later W W') by (apply HW; reflexivity). destruct (add_autos _ _ _ q3); reflexivity.
Qed.

Lemma run_moved :
  (exists t, b_fight_start b = Some t /\ b_fight_start b' = Some (t + d)) -> windows_moved d (b_windows b) (b_windows b') ->
  match get_skill_timing b with
  | Ok r => exists r', get_skill_timing b' = Ok r' /\ moved d r r'
  | Err e => get_skill_timing b' = Err e
  end.
Proof.
  intros ST W0. pose proof (process_windows_later W0) as HW. rewrite !run_body. clear W0.
  set (W := process_downtime_windows b) in *. set (W' := process_downtime_windows b') in *. clearbody W W'.
  rewrite (body_later W W' (fun _ => HW) (or_introl ST)). destruct (body b W) as [[p2 q4]|]; [|reflexivity]. cbn [rmap bind].
  destruct ST as (t0 & E6 & E6'). unfold finish, on_body. cbn [fst snd]. rewrite E6, E6'. cbn [bind].
  rewrite (remove_later _ _ _ HW). destruct (remove_damage_during_downtime W q4) as [q6|]; [|reflexivity]. cbn [rmap bind].
  eexists. split; [reflexivity|].
  pose proof M as (E1 & E2 & E3 & E4 & E5 & E8 & E9 & E10 & E11 & E12 & E13 & E14 & E15 & E16).
  unfold moved, presses_moved. cbn [with_results with_windows b_stats b_library b_snap_dots b_autos b_ignore_trailing b_fight_start b_windows
    b_default_target b_priority b_timed b_sequence b_dots b_press b_queue b_stamps b_targets pass_later pa_press pa_sim pa_stamps sim_later si_dots].
  rewrite sort_press_later. split; [|split; [exists t0; split; assumption|exact HW]].
  repeat (split; [first [reflexivity|assumption]|]). assumption.
Qed.

(** *** Without a start of the fight *)
Lemma shift_later qu pr f :
  get_first_damage_time qu = Ok (Some f) ->
  shift_timelines (queue_later d qu) (map (press_later d) pr) = shift_timelines qu pr.
Proof.
  intros F. unfold shift_timelines. rewrite first_later, F. cbn [rmap bind option_map]. unfold q_drain.
  change (q_heap (queue_later d qu)) with (map (event_later d) (q_heap qu)). rewrite map_length.
  rewrite (drain_map (event_later d) event_lt event_lt (event_lt_later d)). destruct (drain event_lt _ (q_heap qu)) as [evs|]; [|reflexivity].
  cbn [rmap bind].
  assert (X : forall l a, foldM (shift_event (f + d)) (map (event_later d) l) a = foldM (shift_event f) l a).
  { induction l as [|e l IH]; intros a; [reflexivity|]. cbn [foldM map].
    replace (shift_event (f + d) a (event_later d e)) with (shift_event f a e); [destruct (shift_event f a e); [apply IH|reflexivity]|].
    unfold shift_event. cbn [event_later ev_priority ev_primary ev_secondary ev_skill ev_modifier ev_snap ev_targets]. f_equal.
    - unfold time_to_prio. lia.
    - lia.
    - destruct (ev_secondary e); cbn [option_map]; f_equal. lia. }
  rewrite X. destruct (foldM (shift_event f) evs q_init); [|reflexivity]. cbn [bind]. f_equal. f_equal. rewrite map_map. apply map_ext.
  intros p. unfold press_later. cbn [pr_time pr_name pr_job pr_cond]. f_equal. lia.
Qed.
Lemma windows_none : b_windows b = WTuple [] -> b_windows b' = WTuple [] -> windows_moved d (process_downtime_windows b) (process_downtime_windows b').
Proof. intros A B. apply process_windows_later. rewrite A, B. constructor. Qed.
Lemma run_zeroed r :
  b_fight_start b = None -> b_fight_start b' = None -> b_sequence b = [] -> b_windows b' = b_windows b ->
  (b_autos b = false \/ b_windows b = WTuple []) -> get_skill_timing b = Ok r ->
  (exists e sp, In e (q_heap (b_queue r)) /\ get_damage_spec (ev_skill e) (ev_modifier e) = Ok (Some sp)) ->
  exists r', get_skill_timing b' = Ok r' /\ b_press r' = b_press r /\ b_queue r' = b_queue r.
Proof.
  intros F F' SQ WW A G D. rewrite run_body in G. rewrite run_body.
  assert (WE : process_downtime_windows b' = process_downtime_windows b).
  { unfold process_downtime_windows. rewrite WW. destruct M as (_ & _ & _ & _ & _ & _ & _ & _ & _ & _ & _ & _ & _ & T). rewrite T. reflexivity. }
  assert (HW : b_autos b = true -> windows_moved d (process_downtime_windows b) (process_downtime_windows b)).
  { intros X. destruct A as [A|A]; [congruence|]. rewrite <- WE at 2. apply windows_none; [exact A|rewrite WW; exact A]. }
  rewrite WE. set (W := process_downtime_windows b) in *. clearbody W.
  rewrite (body_later W W HW (or_intror SQ)). destruct (body b W) as [[p2 q4]|]; [|discriminate G]. cbn [rmap bind] in *.
  unfold finish, on_body in *. cbn [fst snd]. rewrite F in G. rewrite F'.
  assert (FD : exists f, get_first_damage_time q4 = Ok (Some f)).
  { destruct (get_first_damage_time q4) as [[f|]|] eqn:E; [exists f; reflexivity| |].
    - exfalso. unfold shift_timelines in G. rewrite E in G. cbn [bind] in G. apply bind_ok in G as (q6 & G6 & G). injection G as <-.
      cbn [with_results b_queue] in D. destruct D as (e & sp & I & S). exact (none_left W q4 q6 E G6 e sp I S).
    - unfold shift_timelines in G. rewrite E in G. discriminate G. }
  destruct FD as (f & FD). cbn [pass_later pa_press]. rewrite (shift_later q4 (pa_press p2) f FD).
  destruct (shift_timelines q4 (pa_press p2)) as [[q5 pr]|]; [|discriminate G]. cbn [bind] in *.
  destruct (remove_damage_during_downtime W q5) as [q6|]; [|discriminate G]. cbn [bind] in *. injection G as <-.
  eexists. split; [reflexivity|]. split; reflexivity.
Qed.
End Move.
