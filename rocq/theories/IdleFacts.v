(** * Facts about presses that do nothing (C75) *)

From Coq Require Import ZArith QArith List String Bool Lia Permutation Sorted.
From Verif Require Import Base BaseFacts Heap HeapFacts Float Strings Types Lookup StatusEffect JobResource Combo Stats Library Events Rotation SpecQueue SpecPlay
  SpecTimeline SpecDots SpecGame SpecRun SpecLater SpecReplay SpecShuffle SpecIdle CondFacts StatusFacts EventsFacts PlayFacts LogFacts TimelineFacts DotFacts RunFacts RunProps SafeFacts LaterFacts ReplayFacts ShuffleFacts.
Import ListNotations.
Open Scope Z_scope.

Lemma idle_grants s : idle s -> grants_nothing s.
Proof. intros I m. apply (I m). Qed.

(** ** Effects whose uses a name does not count *)

Section Quiet.
  Variable name : string.
  Definition quiet_active (a : active) : Prop :=
    ac_uses a = Inf \/ exists l, se_allowlist (ac_spec a) = Some l /\ ~ In name l.
  Definition quiet (d : dict active) : Prop := NoDup (dkeys d) /\ Forall (fun kv => quiet_active (snd kv)) d.
  Definition quiet_se (st : se_tracker) : Prop := quiet (se_buffs st) /\ forall tg d, In (tg, d) (se_debuffs st) -> quiet d.

  Lemma quiet_nil : quiet [].
  Proof. split; constructor. Qed.
  Lemma quiet_filter f d : quiet d -> quiet (filter f d).
  Proof. intros (N & H). split; [apply filter_nodup_keys, N|]. apply Forall_forall. intros x I. apply filter_In in I as (I & _). rewrite Forall_forall in H. apply H, I. Qed.
  Lemma quiet_dset d n a : quiet d -> quiet_active a -> quiet (dset n a d).
  Proof.
    intros (N & H) A. split; [apply dset_nodup, N|]. rewrite Forall_forall in *. intros x I. apply dset_in in I as [->|I]; [exact A | apply H, I].
  Qed.
  Lemma quiet_get d n a : quiet d -> dget n d = Some a -> quiet_active a.
  Proof. intros (_ & H) E. apply dget_in in E. rewrite Forall_forall in H. exact (H _ E). Qed.
  Lemma quiet_add d t n sp : quiet d -> uses_apart name sp -> quiet (add_effect d t n sp).
  Proof.
    intros Q U. unfold add_effect. destruct (dget n d) as [prev|] eqn:E.
    - apply quiet_dset; [exact Q|]. destruct U as [(U1 & U2)|U]; [left | right; exact U]. cbn. rewrite U1, U2. destruct (ac_uses prev); reflexivity.
    - destruct (extend_only sp); [exact Q|]. apply quiet_dset; [exact Q|]. destruct U as [(U1 & _)|U]; [left; exact U1 | right; exact U].
  Qed.
  Lemma quiet_end d n t : quiet d -> quiet (end_effect d n t).
  Proof.
    intros Q. unfold end_effect. destruct (dget n d) as [a|] eqn:E; [|exact Q]. apply quiet_dset; [exact Q|]. exact (quiet_get _ _ _ Q E).
  Qed.
  Lemma quiet_debuffs st tg : quiet_se st -> quiet (get_debuffs st tg).
  Proof.
    intros (_ & H). unfold get_debuffs. destruct (dget tg (se_debuffs st)) as [d|] eqn:E; [|apply quiet_nil]. apply dget_in in E. exact (H _ _ E).
  Qed.
  Lemma quiet_set_buffs st d : quiet_se st -> quiet d -> quiet_se (set_buffs st d).
  Proof. intros (_ & H) C. split; [exact C | exact H]. Qed.
  Lemma quiet_set_debuffs st tg d : quiet_se st -> quiet d -> quiet_se (set_debuffs st tg d).
  Proof. intros (B & H) C. split; [exact B|]. intros tg' d' I. apply dset_in in I as [[= -> ->]|I]; [exact C | exact (H _ _ I)]. Qed.
  Lemma quiet_named st n t tg : quiet_se st -> quiet_se (expire_named_effect st n t tg).
  Proof.
    intros C. unfold expire_named_effect. set (st1 := set_buffs st _).
    assert (C1 : quiet_se st1) by (apply quiet_set_buffs; [exact C | apply quiet_end, C]).
    destruct (dget n (get_debuffs st1 tg)); [|exact C1]. apply quiet_set_debuffs; [exact C1|]. apply quiet_end, quiet_debuffs, C1.
  Qed.
  Lemma quiet_expire st t : quiet_se st -> quiet_se (expire_status_effects t st).
  Proof.
    intros (B & H). split; [apply quiet_filter, B|]. cbn. intros tg d I. apply in_map_iff in I as ([tg' d'] & [= <- <-] & I).
    apply quiet_filter. exact (H _ _ I).
  Qed.
  Lemma quiet_apply st t s m tg st' :
    quiet_se st -> (forall e, In e (SpecGame.effects_of s) -> uses_apart name e) -> add_to_status_effects st t s m tg = Ok st' -> quiet_se st'.
  Proof.
    intros C U H. unfold add_to_status_effects in H. inv_bind H. inv_bind H. injection H as <-.
    set (st1 := match a with Some _ => _ | None => _ end).
    assert (C1 : quiet_se st1).
    { unfold st1. destruct a as [sp|]; [|exact C]. unfold apply_buff. apply fold_left_inv; [|intros; apply quiet_named; assumption].
      apply quiet_set_buffs; [exact C|]. apply quiet_add; [destruct (clear_all_status_effects sp); [apply quiet_nil | apply C]|].
      apply U, in_or_app. left. exact (cspec_declared _ _ _ E). }
    destruct a0 as [sp|]; [|exact C1]. apply fold_left_inv; [exact C1|]. intros s0 x _ Q. unfold apply_debuff. apply fold_left_inv; [|intros; apply quiet_named; assumption].
    apply quiet_set_debuffs; [exact Q|]. apply quiet_add; [apply quiet_debuffs, Q|]. apply U, in_or_app. right. exact (cspec_declared _ _ _ E0).
  Qed.
  Lemma quiet_compile prio t d deny n d' r : quiet d -> compile_effects prio t d deny n = Ok (d', r) -> quiet d'.
  Proof.
    intros Q H. unfold compile_effects in H. inv_bind H. destruct a as [[d1 e1] c1]. injection H as <- _.
    revert E. apply (foldM_inv use_effect (fun x => quiet (fst (fst x)))); [exact Q|].
    intros [[d2 e2] c2] x [[d3 e3] c3] _ Q2 U. unfold use_effect in U. inv_bind U. inv_bind U. injection U as <- _ _. cbn [fst] in *.
    unfold of_option in E. destruct (dget x d2) as [a'|] eqn:G; [|discriminate E]. injection E as ->. apply quiet_dset; [exact Q2|].
    destruct (quiet_get _ _ _ Q2 G) as [I|I]; [left; cbn; rewrite I; reflexivity | right; exact I].
  Qed.

  (** Compiling for the name itself changes nothing. *)
  Lemma dset_same {V} k (v : V) d : dget k d = Some v -> dset k v d = d.
  Proof.
    induction d as [|[k' v'] d IH]; cbn; [discriminate|]. destruct (String.eqb_spec k k') as [->|N]; [intros [= ->]; reflexivity|].
    intros H. rewrite (IH H). reflexivity.
  Qed.
  Lemma same_compile prio t d deny d' r : quiet d -> compile_effects prio t d deny name = Ok (d', r) -> d' = d.
  Proof.
    intros Q H. unfold compile_effects in H. inv_bind H. destruct a as [[d1 e1] c1]. injection H as <- _.
    assert (N : NoDup (valid_status_effects t d deny name)) by (apply filter_nodup_keys, Q).
    destruct (delete_lower_sub prio _ N) as (_ & I). set (names := delete_lower_priority prio _) in *. clearbody names.
    assert (V : forall x, In x names -> exists a, dget x d = Some a /\ ac_uses a = Inf).
    { intros x Hx. apply I in Hx. unfold valid_status_effects in Hx. apply in_map_iff in Hx as ([x' a] & <- & Hx).
      apply filter_In in Hx as (Hx & Va). exists a. assert (G : dget x' d = Some a) by (apply in_dget; [apply Q | exact Hx]). split; [exact G|].
      destruct (quiet_get _ _ _ Q G) as [U|(l & L & U)]; [exact U|]. exfalso. unfold valid_effect in Va. apply andb_true_iff in Va as (_ & Va).
      cbn in Va. rewrite L in Va. apply U. apply smem_spec, Va. }
    revert E. apply (foldM_inv use_effect (fun x => fst (fst x) = d)); [reflexivity|].
    intros [[d2 e2] c2] x [[d3 e3] c3] Hx Q2 U. cbn [fst] in *. subst d2. unfold use_effect in U. inv_bind U. inv_bind U. injection U as <- _ _.
    destruct (V x Hx) as (a' & G & Ua). rewrite G in E. injection E as <-. destruct a' as [st en us sp]. cbn in Ua. subst us. cbn.
    apply dset_same, G.
  Qed.
End Quiet.

(** ** Expiring twice *)

Lemma expire_twice t t' d : t <= t' -> expire_effects t' (expire_effects t d) = expire_effects t' d.
Proof.
  intros L. unfold expire_effects. induction d as [|kv d IH]; [reflexivity|]. cbn [filter].
  destruct (expired_at t (snd kv)) eqn:E; cbn [negb filter].
  - assert (expired_at t' (snd kv) = true) as ->; [|cbn [negb]; exact IH]. unfold expired_at in *. apply orb_true_iff in E as [E|E]; [|rewrite E; apply orb_true_r].
    apply orb_true_iff. left. unfold z_gt_ext in *. destruct (ac_end (snd kv)); [|discriminate]. apply Z.ltb_lt in E. apply Z.ltb_lt. lia.
  - destruct (negb (expired_at t' (snd kv))); [f_equal|]; exact IH.
Qed.
Lemma dget_map_values {V W} (f : V -> W) k d : dget k (map (fun kv => (fst kv, f (snd kv))) d) = option_map f (dget k d).
Proof. induction d as [|[k' v] d IH]; [reflexivity|]. cbn. destruct (String.eqb k k'); [reflexivity | exact IH]. Qed.
Lemma dset_map_values {V W} (f : V -> W) k v d : dset k (f v) (map (fun kv => (fst kv, f (snd kv))) d) = map (fun kv => (fst kv, f (snd kv))) (dset k v d).
Proof. induction d as [|[k' x] d IH]; [reflexivity|]. cbn. destruct (String.eqb k k'); cbn; [reflexivity | rewrite IH; reflexivity]. Qed.
Lemma dset_dset {V} k (v w : V) d : dset k v (dset k w d) = dset k v d.
Proof.
  induction d as [|[k' x] d IH]; cbn; [rewrite String.eqb_refl; reflexivity|]. destruct (String.eqb k k') eqn:E; cbn; rewrite E; [reflexivity | rewrite IH; reflexivity].
Qed.

Lemma expire_debuffs t st tg : get_debuffs (expire_status_effects t st) tg = expire_effects t (get_debuffs st tg).
Proof. unfold get_debuffs. cbn [expire_status_effects se_debuffs]. rewrite dget_map_values. destruct (dget tg (se_debuffs st)); reflexivity. Qed.

(** Trackers after a press of the name: as before, as far as later presses are concerned. *)
Definition rested (t : Z) (tg : string) (st : se_tracker) : se_tracker :=
  let e := expire_status_effects t st in set_debuffs e tg (get_debuffs e tg).
Lemma rested_later t t' tg st : t <= t' ->
  se_buffs (expire_status_effects t' (rested t tg st)) = se_buffs (expire_status_effects t' st)
  /\ get_debuffs (expire_status_effects t' (rested t tg st)) tg = get_debuffs (expire_status_effects t' st) tg
  /\ (forall d, dset tg d (se_debuffs (expire_status_effects t' (rested t tg st))) = dset tg d (se_debuffs (expire_status_effects t' st)))
  /\ se_priority (rested t tg st) = se_priority st.
Proof.
  intros L. unfold rested. cbn [se_buffs se_debuffs se_priority expire_status_effects set_debuffs]. split; [apply expire_twice, L|].
  assert (A : forall d, dset tg d (map (fun kv => (fst kv, expire_effects t' (snd kv))) (dset tg (get_debuffs (expire_status_effects t st) tg) (map (fun kv => (fst kv, expire_effects t (snd kv))) (se_debuffs st))))
                 = dset tg d (map (fun kv => (fst kv, expire_effects t' (snd kv))) (se_debuffs st))).
  { intros d. rewrite <- dset_map_values, dset_dset, map_map. f_equal. apply map_ext. intros [k v]. cbn [fst snd]. rewrite expire_twice by exact L. reflexivity. }
  split; [|split; [exact A | reflexivity]].
  change (get_debuffs (expire_status_effects t' (set_debuffs (expire_status_effects t st) tg (get_debuffs (expire_status_effects t st) tg))) tg = get_debuffs (expire_status_effects t' st) tg).
  rewrite !expire_debuffs, get_debuffs_set_debuffs, String.eqb_refl. apply expire_twice, L.
Qed.

(** ** A press of the name *)

Section Idle.
  Variable name : string.
  Definition unasked (jr : jr_tracker) : Prop := forall n cfg l, In (n, (cfg, l)) jr -> ~ In name (jrs_allowlist cfg).
  Definition quiet_tk (tk : trackers) : Prop := quiet_se name (tk_se tk) /\ unasked (tk_jr tk).

  Lemma asks_nothing jr t : unasked jr -> fst (compile_job_resources jr t name) = jr.
  Proof.
    intros U. unfold compile_job_resources. cbn [fst]. rewrite <- (map_id jr) at 2. apply map_ext_in. intros [n [cfg l]] I.
    destruct (smem name (jrs_allowlist cfg)) eqn:E; [|reflexivity]. apply smem_spec in E. destruct (U _ _ _ I E).
  Qed.
  Lemma set_same_buffs st : set_buffs st (se_buffs st) = st.
  Proof. destruct st; reflexivity. Qed.
  Lemma idle_press tk t s m r : sk_name s = name -> grants_nothing s -> quiet_tk tk -> compile_press tk t s m = Ok r ->
    fst (fst (fst r)) = mkTrackers (rested t DEFAULT_TARGET (tk_se tk)) (tk_jr tk) (tk_combo tk).
  Proof.
    intros N Id (Q & U) H. unfold compile_press in H. inv_bind H. destruct a as [se1 [bu mb]]. inv_bind H. destruct a as [se2 [de md]].
    destruct (compile_job_resources (tk_jr tk) t (sk_name s)) as [jr mj] eqn:J. inv_bind H. destruct a as [ct mc]. injection H as <-. cbn [fst].
    pose proof (quiet_expire name _ t Q) as Qe. set (e := expire_status_effects t (tk_se tk)) in *.
    unfold compile_buffs in E. inv_bind E. destruct a as [d rr]. injection E as <- ->. rewrite N in *.
    apply same_compile in E2; [|apply Qe]. subst d. rewrite set_same_buffs in E0.
    unfold compile_debuffs in E0. inv_bind E0. destruct a as [d rr]. injection E0 as <- ->. rewrite N in *.
    apply same_compile in E; [|apply quiet_debuffs, Qe]. subst d.
    pose proof (asks_nothing (tk_jr tk) t U) as Ej. rewrite J in Ej. cbn [fst] in Ej. subst jr.
    unfold compile_and_update_combo in E1. destruct (Id (add_to_condition (add_to_condition (add_to_condition m mb) md) mj)) as (_ & _ & _ & C & _).
    rewrite C in E1. cbn in E1. injection E1 as <- <-. reflexivity.
  Qed.
  Lemma later_press_same tk t t' s m : t <= t' ->
    compile_press (mkTrackers (rested t DEFAULT_TARGET (tk_se tk)) (tk_jr tk) (tk_combo tk)) t' s m = compile_press tk t' s m.
  Proof.
    intros L. destruct (rested_later t t' DEFAULT_TARGET (tk_se tk) L) as (B & D & S & P). unfold compile_press. cbn [tk_se tk_jr tk_combo].
    unfold compile_buffs, compile_debuffs.
    change (se_priority (expire_status_effects t' ?x)) with (se_priority x). rewrite P, B.
    destruct (compile_effects (se_priority (tk_se tk)) t' (se_buffs (expire_status_effects t' (tk_se tk))) (sk_denylist s) (sk_name s)) as [[d r]|e]; [|reflexivity]. cbn [bind].
    change (get_debuffs (set_buffs ?x d) DEFAULT_TARGET) with (get_debuffs x DEFAULT_TARGET). rewrite D.
    change (se_priority (set_buffs (expire_status_effects t' ?x) d)) with (se_priority x). rewrite P. destruct r as [bu mb].
    destruct (compile_effects (se_priority (tk_se tk)) t' (get_debuffs (expire_status_effects t' (tk_se tk)) DEFAULT_TARGET) (sk_denylist s) (sk_name s)) as [[d2 r2]|e]; [|reflexivity]. cbn [bind].
    destruct r2 as [de md].
    assert (E : set_debuffs (set_buffs (expire_status_effects t' (rested t DEFAULT_TARGET (tk_se tk))) d) DEFAULT_TARGET d2
              = set_debuffs (set_buffs (expire_status_effects t' (tk_se tk)) d) DEFAULT_TARGET d2).
    { unfold set_debuffs, set_buffs at 1 3. cbn [se_buffs se_debuffs se_priority]. rewrite S.
      unfold set_buffs. cbn [se_buffs se_debuffs se_priority]. f_equal. }
    rewrite E. reflexivity.
  Qed.

  (** ** Trackers stay quiet *)

  Lemma quiet_press tk t s m r : quiet_tk tk -> compile_press tk t s m = Ok r -> quiet_tk (fst (fst (fst r))).
  Proof.
    intros (Q & U) H. unfold compile_press in H. inv_bind H. destruct a as [se1 [bu mb]]. inv_bind H. destruct a as [se2 [de md]].
    destruct (compile_job_resources (tk_jr tk) t (sk_name s)) as [jr mj] eqn:J. inv_bind H. destruct a as [ct mc]. injection H as <-. cbn [fst].
    pose proof (quiet_expire name _ t Q) as Qe.
    unfold compile_buffs in E. inv_bind E. destruct a as [d rr]. injection E as <- ->. apply (quiet_compile name) in E2; [|apply Qe].
    pose proof (quiet_set_buffs name _ _ Qe E2) as Qb.
    unfold compile_debuffs in E0. inv_bind E0. destruct a as [d' rr]. injection E0 as <- ->. apply (quiet_compile name) in E; [|apply quiet_debuffs, Qb].
    split; [apply quiet_set_debuffs; assumption|]. cbn [tk_jr]. unfold compile_job_resources in J. injection J as <- _.
    intros n cfg l I. apply in_map_iff in I as ([n0 [cfg0 l0]] & I & I0). specialize (U _ _ _ I0).
    destruct (smem (sk_name s) (jrs_allowlist cfg0)); injection I as <- <- <-; exact U.
  Qed.
  Lemma quiet_resources jr t s m jr' : unasked jr -> add_resource jr t s m = Ok jr' -> unasked jr'.
  Proof.
    intros U H. unfold add_resource in H. inv_bind H. revert H. apply (foldM_inv _ unasked); [exact U|].
    intros tr sp tr' _ V H. unfold add_one_resource in H. destruct (jr_clear_all sp).
    - injection H as <-. intros n cfg l I. unfold clear_resources in I. apply in_map_iff in I as ([n0 [cfg0 l0]] & I & I0). injection I as <- <- <-. exact (V _ _ _ I0).
    - inv_bind H. destruct a0 as [cfg0 l0]. injection H as <-. unfold of_option in E0. destruct (dget (jr_name sp) tr) as [[cfg1 l1]|] eqn:G; [|discriminate E0]. injection E0 as -> ->.
      intros n cfg l I. apply dset_in in I as [[= -> -> ->]|I]; [apply dget_in in G; exact (V _ _ _ G) | exact (V _ _ _ I)].
  Qed.
  Lemma quiet_grants tk t tr s m tg tk' :
    (forall e, In e (SpecGame.effects_of s) -> uses_apart name e) -> quiet_tk tk -> grants tk t tr s m tg tk' -> quiet_tk tk'.
  Proof.
    intros E (Q & U) (se & jr & H1 & H2 & ->). split; cbn; [eapply quiet_apply; eassumption | eapply quiet_resources; eassumption].
  Qed.
  Lemma quiet_follow_ups p tk l tk' :
    (forall fu e, In fu l -> In e (SpecGame.effects_of (fu_skill fu)) -> uses_apart name e) -> quiet_tk tk -> follow_ups_grant p tk l tk' -> quiet_tk tk'.
  Proof.
    intros E Q F. induction F as [|tk fu d l tk' D F IH|tk fu tk1 l tk' D G F IH]; [exact Q | |].
    - apply IH; [|exact Q]. intros. eapply E; [right|]; eassumption.
    - apply IH; [intros; eapply E; [right|]; eassumption|]. eapply quiet_grants; [|exact Q | exact G]. intros. eapply E; [left; reflexivity | assumption].
  Qed.
  Definition harmless (s : skill) : Prop := forall p e, part_of p s -> In e (SpecGame.effects_of p) -> uses_apart name e.
  Lemma quiet_skill st tk p0 p tk' : harmless (pl_skill p0) -> pl_targets p0 <> [] -> quiet_tk tk -> skill_effect st tk p0 = Ok (p, tk') -> quiet_tk tk'.
  Proof.
    intros Hm T Q H. pose proof (skill_effect_spec _ _ _ _ _ H T) as (W & _ & _ & Es & _). apply skill_effect_grants in H as (tk1 & G & F). rewrite Es in G.
    eapply quiet_follow_ups; [|eapply quiet_grants; [|exact Q|exact G]|exact F].
    - destruct W as (_ & _ & _ & W & _). rewrite Es in W. intros fu e I1 I2. apply (Hm (fu_skill fu) e); [|exact I2]. apply part_follow_up with (fu := fu); [|apply part_self].
      exact (tspec_declared _ _ _ _ W I1).
    - intros e I. apply (Hm (pl_skill p0)); [apply part_self | exact I].
  Qed.
  Lemma quiet_timed st tk x p tk' : harmless (tm_skill x) -> quiet_tk tk -> timed_effect st tk x = Ok (p, tk') -> quiet_tk tk'.
  Proof.
    intros Hm Q H. unfold timed_effect in H. inv_bind H. destruct a as [[[tk1 m1] bu] de]. inv_bind H. inv_bind H. apply quiet_press in E; [|exact Q].
    eapply quiet_skill; [| |exact E|exact H]; [exact Hm|]. cbn. intros N. rewrite N in E1. discriminate E1.
  Qed.
  Lemma quiet_seq st tk t g x r : harmless (sq_skill x) -> quiet_tk tk -> seq_effect st tk t g x = Ok r -> quiet_tk (snd (fst (fst r))).
  Proof.
    intros Hm Q H. unfold seq_effect in H. inv_bind H. destruct a as [[[tk1 m1] bu] de]. inv_bind H. inv_bind H. inv_bind H. inv_bind H. destruct a2 as [p tk'].
    apply quiet_press in E; [|exact Q].
    apply quiet_skill in E3; [| exact Hm | cbn; intros N; rewrite N in E2; discriminate E2 | exact E].
    inv_bind H. destruct (sk_is_GCD (sq_skill x)); [inv_bind H; inv_bind H|]; injection H as <-; exact E3.
  Qed.

  (** ** The effect of an idle press *)

  Lemma idle_skill st tk p0 p tk' : grants_nothing (pl_skill p0) -> skill_effect st tk p0 = Ok (p, tk') -> tk' = tk /\ pl_follow_ups p = [].
  Proof.
    intros Id H. destruct (Id (pl_modifier p0)) as (B & D & F & _ & J). unfold skill_effect in H. inv_bind H. inv_bind H. inv_bind H. destruct a1 as [sn ap].
    unfold add_to_status_effects in H. rewrite B, D in H. cbn [bind] in H. unfold add_resource in H. rewrite J in H. cbn [bind foldM] in H. rewrite F in H. cbn [bind foldM] in H.
    injection H as <- <-. destruct tk; split; reflexivity.
  Qed.
  Lemma idle_timed st tk x p tk' : sk_name (tm_skill x) = name -> grants_nothing (tm_skill x) -> quiet_tk tk -> timed_effect st tk x = Ok (p, tk') ->
    tk' = mkTrackers (rested (tm_time x) DEFAULT_TARGET (tk_se tk)) (tk_jr tk) (tk_combo tk) /\ pl_follow_ups p = [] /\ pl_skill p = tm_skill x /\ pl_targets p <> [].
  Proof.
    intros N Id Q H. unfold timed_effect in H. inv_bind H. destruct a as [[[tk1 m1] bu] de]. inv_bind H. inv_bind H. apply idle_press in E; [|exact N|exact Id|exact Q].
    cbn [fst] in E. subst tk1.
    assert (T : tm_targets x <> []) by (intros Z; rewrite Z in E1; discriminate E1).
    pose proof (fun i => idle_skill _ _ _ _ _ i H) as Is. destruct (Is Id) as (-> & F). split; [reflexivity|]. split; [exact F|]. apply skill_effect_spec in H as (_ & _ & _ & S & _ & _ & Tg & _); [|exact T]. rewrite S, Tg. auto.
  Qed.
  Lemma later_timed st tk t x : t <= tm_time x ->
    timed_effect st (mkTrackers (rested t DEFAULT_TARGET (tk_se tk)) (tk_jr tk) (tk_combo tk)) x = timed_effect st tk x.
  Proof. intros L. unfold timed_effect. rewrite later_press_same by exact L. reflexivity. Qed.
  Lemma later_timeds st tk t l : Forall (fun x => t <= tm_time x) l ->
    forall log r, timed_log st (mkTrackers (rested t DEFAULT_TARGET (tk_se tk)) (tk_jr tk) (tk_combo tk)) l = Ok (log, r) -> exists r', timed_log st tk l = Ok (log, r').
  Proof.
    intros F log r H. destruct l as [|x l]; [cbn in *; injection H as <- _; eauto|]. inversion F as [|? ? F1 _]; subst.
    cbn [timed_log] in *. rewrite later_timed in H by exact F1. eauto.
  Qed.

  Lemma timed_without st x o2 : sk_name (tm_skill x) = name -> grants_nothing (tm_skill x) -> Forall (fun y => tm_time x <= tm_time y) o2 ->
    forall o1 tk log r, (forall y, In y o1 -> harmless (tm_skill y)) -> quiet_tk tk ->
    timed_log st tk (o1 ++ x :: o2) = Ok (log, r) ->
    exists l1 p l2 r', log = (l1 ++ p :: l2)%list /\ pl_follow_ups p = [] /\ pl_skill p = tm_skill x /\ pl_targets p <> [] /\ timed_log st tk (o1 ++ o2) = Ok ((l1 ++ l2)%list, r').
  Proof.
    intros N Id F. induction o1 as [|y o1 IH]; intros tk log r Hm Q H; cbn [app timed_log] in *.
    - inv_bind H. destruct a as [p tk']. inv_bind H. destruct a as [lg r2]. injection H as <- <-.
      destruct (idle_timed _ _ _ _ _ N Id Q E) as (-> & Pf & Ps & Pt). destruct (later_timeds _ _ _ _ F _ _ E0) as (r' & R).
      exists [], p, lg, r'. auto.
    - inv_bind H. destruct a as [p tk']. inv_bind H. destruct a as [lg r2]. injection H as <- <-.
      assert (Q' : quiet_tk tk') by (eapply quiet_timed; [apply Hm; left; reflexivity | exact Q | exact E]).
      destruct (IH tk' lg r2 (fun z I => Hm z (or_intror I)) Q' E0) as (l1 & p' & l2 & r' & -> & A & B & C & D).
      exists (p :: l1), p', l2, r'. try rewrite E. cbn [bind]. rewrite D. cbn [bind app]. auto.
  Qed.

  (** ** The same among sequenced presses *)

  Lemma idle_seq st tk t g x r : sk_name (sq_skill x) = name -> grants_nothing (sq_skill x) -> sk_is_GCD (sq_skill x) = false -> quiet_tk tk ->
    seq_effect st tk t g x = Ok r ->
    exists p, r = (p, mkTrackers (rested t DEFAULT_TARGET (tk_se tk)) (tk_jr tk) (tk_combo tk), t + busy p, g)
      /\ pl_time p = t /\ pl_follow_ups p = [] /\ pl_skill p = sq_skill x /\ pl_targets p <> []
      /\ exists spec, pl_timing p = Some spec /\ get_timing_spec (sq_skill x) (pl_modifier p) = Ok (Some spec) /\ busy p = animation_lock spec.
  Proof.
    intros N Id Ng Q H. unfold seq_effect in H. rewrite Ng in H. unfold press_time in H. inv_bind H. destruct a as [[[tk1 m1] bu] de]. inv_bind H. inv_bind H. inv_bind H. inv_bind H. destruct a2 as [p tk'].
    apply idle_press in E; [|exact N|exact Id|exact Q]. cbn [fst] in E. subst tk1.
    assert (T : sq_targets x <> []) by (intros Z; rewrite Z in E2; discriminate E2).
    pose proof (fun i => idle_skill _ _ _ _ _ i E3) as Is. destruct (Is Id) as (-> & F).
    apply skill_effect_spec in E3 as ((W & _) & _ & Tm & S & _ & _ & Tg & Md & _); [|exact T].
    cbn [pl_time pl_skill pl_targets pl_modifier] in *. rewrite S, Md in W. rewrite E1 in W. injection W as W. inv_bind H. injection H as <-.
    unfold of_option in E. destruct a0 as [spec|]; [|discriminate E]. injection E as <-.
    assert (Bp : busy p = animation_lock spec) by (unfold busy; rewrite S, Ng, <- W; reflexivity).
    exists p. rewrite Bp. split; [reflexivity|]. rewrite Tg. repeat (split; [assumption|]). exists spec. rewrite <- W, Md. auto.
  Qed.
  Lemma later_seq st tk t t1 g y r : t <= t1 -> sk_is_GCD (sq_skill y) = true ->
    seq_effect st (mkTrackers (rested t DEFAULT_TARGET (tk_se tk)) (tk_jr tk) (tk_combo tk)) t1 g y = Ok r -> t1 < pl_time (fst (fst (fst r))) ->
    seq_effect st tk t g y = Ok r.
  Proof.
    intros L Gy H Lt.
    assert (Pt : press_time true t g = press_time true t1 g /\ t <= press_time true t1 g).
    { assert (E : pl_time (fst (fst (fst r))) = press_time true t1 g).
      { unfold seq_effect in H. rewrite Gy in H. inv_bind H. destruct a as [[[tk1 m1] bu] de]. inv_bind H. inv_bind H. inv_bind H. inv_bind H. destruct a2 as [p tk'].
        assert (T : sq_targets y <> []) by (intros Z; rewrite Z in E2; discriminate E2).
        apply skill_effect_spec in E3 as (_ & _ & Tm & _); [|exact T]. inv_bind H. inv_bind H. inv_bind H. injection H as <-. exact Tm. }
      rewrite E in Lt. unfold press_time in *. destruct g as [z|]; lia. }
    destruct Pt as (Pt & Le). unfold seq_effect in *. rewrite Gy in *. rewrite Pt. rewrite later_press_same in H by exact Le. exact H.
  Qed.

  Lemma seq_without st x o2 : sk_name (sq_skill x) = name -> grants_nothing (sq_skill x) -> sk_is_GCD (sq_skill x) = false ->
    (forall m spec, get_timing_spec (sq_skill x) m = Ok (Some spec) -> 0 <= animation_lock spec) ->
    forall o1 tk t g log r, (forall y, In y o1 -> harmless (sq_skill y)) -> quiet_tk tk ->
    seq_log st tk t g (o1 ++ x :: o2) = Ok (log, r) ->
    (forall p q, nth_error log (List.length o1) = Some p -> nth_error log (S (List.length o1)) = Some q ->
       sk_is_GCD (pl_skill q) = true /\ pl_time p + busy p < pl_time q) ->
    exists l1 p l2 r', log = (l1 ++ p :: l2)%list /\ pl_follow_ups p = [] /\ pl_skill p = sq_skill x /\ pl_targets p <> [] /\ seq_log st tk t g (o1 ++ o2) = Ok ((l1 ++ l2)%list, r').
  Proof.
    intros N Id Ng Lk. induction o1 as [|y o1 IH]; intros tk t g log r Hm Q H Fi; cbn [app seq_log List.length] in *.
    - inv_bind H. destruct a as [[[p tk'] t'] g']. inv_bind H. destruct a as [lg r2]. injection H as <- <-.
      destruct (idle_seq _ _ _ _ _ _ N Id Ng Q E) as (p0 & X & Pt & Pf & Ps & Ptg & spec & _ & Sp & Bp). injection X as <- -> -> ->.
      pose proof (Lk _ _ Sp) as L0. cbn [nth_error] in Fi.
      destruct o2 as [|z o2].
      { cbn in E0. injection E0 as <- <-. exists [], p, [], (tk, t, g). auto. }
      cbn [seq_log] in E0. inv_bind E0. destruct a as [[[p2 tk2] t2] g2]. inv_bind E0. destruct a as [lg2 r3]. injection E0 as <- <-.
      destruct (Fi p p2 eq_refl eq_refl) as (F1 & F2). rewrite Pt in F2.
      assert (Gz : sk_is_GCD (sq_skill z) = true).
      { clear - E1 F1. unfold seq_effect in E1. inv_bind E1. destruct a as [[[tk1 m1] bu] de]. inv_bind E1. inv_bind E1. inv_bind E1. inv_bind E1. destruct a2 as [p9 tk9].
        assert (T : sq_targets z <> []) by (intros Z; rewrite Z in E3; discriminate E3).
        apply skill_effect_spec in E4 as (_ & _ & _ & S & _); [|exact T]. cbn [pl_skill] in S. rewrite <- S.
        inv_bind E1. destruct (sk_is_GCD (sq_skill z)); [inv_bind E1; inv_bind E1|]; injection E1 as <- _ _ _; exact F1. }
      apply later_seq in E1; [| lia | exact Gz | exact F2].
      exists [], p, (p2 :: lg2), r3. repeat (split; [assumption || reflexivity|]). cbn [app seq_log]. rewrite E1. cbn [bind]. rewrite E2. reflexivity.
    - inv_bind H. destruct a as [[[p tk'] t'] g']. inv_bind H. destruct a as [lg r2]. injection H as <- <-.
      assert (Q' : quiet_tk tk') by (pose proof (quiet_seq _ _ _ _ _ _ (Hm y (or_introl eq_refl)) Q E) as X; exact X).
      destruct (IH tk' t' g' lg r2 (fun z I => Hm z (or_intror I)) Q' E0 Fi) as (l1 & p' & l2 & r' & -> & A & B & C & D).
      exists (p :: l1), p', l2, r'. try rewrite E. cbn [bind]. rewrite D. cbn [bind app]. auto.
  Qed.
End Idle.

(** ** When a run succeeds *)

Definition entries_of (b : builder) (log : list played) : list add_call :=
  (flat_map press_entries log ++ all_dot_calls (b_snap_dots b) None (fold_left record_dot (flat_map press_dots log) (b_dots b)))%list.
Definition all_known (l : list add_call) : Prop := forall c, In c l -> exists x, get_damage_spec (ad_skill c) (ad_modifier c) = Ok x.

Lemma anon_known l m : Permutation (map anon l) (map entry m) ->
  (all_known m <-> forall e, In e l -> exists x, get_damage_spec (ev_skill e) (ev_modifier e) = Ok x).
Proof.
  intros P. split.
  - intros K e He. apply (in_map anon) in He. apply (Permutation_in _ P) in He. apply in_map_iff in He as (c & E & Hc). destruct (K c Hc) as (x & X). exists x.
    replace (ev_skill e) with (ad_skill c) by (apply (f_equal ev_skill) in E; exact E). replace (ev_modifier e) with (ad_modifier c) by (apply (f_equal ev_modifier) in E; exact E). exact X.
  - intros K c Hc. apply (in_map entry) in Hc. apply (Permutation_in _ (Permutation_sym P)) in Hc. apply in_map_iff in Hc as (e & E & He). destruct (K e He) as (x & X). exists x.
    replace (ad_skill c) with (ev_skill e) by (apply (f_equal ev_skill) in E; exact E). replace (ad_modifier c) with (ev_modifier e) by (apply (f_equal ev_modifier) in E; exact E). exact X.
Qed.
Lemma first_damage_total l acc : (forall e, In e l -> exists x, get_damage_spec (ev_skill e) (ev_modifier e) = Ok x) -> exists r, foldM first_damage_step l acc = Ok r.
Proof.
  revert acc. induction l as [|e l IH]; intros acc K; cbn [foldM]; [eauto|]. unfold first_damage_step at 1. destruct (K e (or_introl eq_refl)) as (x & ->). cbn [bind].
  apply IH. intros e' He'. apply K. right. exact He'.
Qed.
Lemma shift_total qu pr : good qu -> damage_known qu -> exists q' pr', shift_timelines qu pr = Ok (q', pr').
Proof.
  intros (I & F) K. unfold shift_timelines, get_first_damage_time. destruct (first_damage_total (q_heap qu) None K) as (fd & ->). cbn [bind]. destruct fd as [d|]; [|eauto].
  destruct (q_drain_total qu I) as (evs & ->). cbn [bind].
  assert (T : forall qu0, exists q', foldM (shift_event d) evs qu0 = Ok q').
  { induction evs as [|e evs IH]; intros qu0; cbn [foldM]; [eauto|]. unfold shift_event at 1, q_add_new. rewrite q_add_eq.
    match goal with |- context [api_add qu0 ?c] => destruct (api_add_total qu0 c) as (q1 & ->) end. cbn [bind]. apply IH. }
  destruct (T q_init) as (q' & ->). cbn [bind]. eauto.
Qed.

Lemma run_known b r slog tlog :
  dots_ok (b_dots b) -> b_autos b = false -> b_ignore_trailing b = false -> sequence_log b = Ok slog -> timeds_log b = Ok tlog ->
  get_skill_timing b = Ok r -> all_known (entries_of b (slog ++ tlog)).
Proof.
  intros Dk Au Tr S T H. rewrite get_skill_timing_eq in H. cbv zeta in H. set (w := process_downtime_windows b) in *. set (c := with_windows b w) in *.
  inv_bind H. destruct a as [[[q2 d2] pr2] sp2]. apply presses_pass_spec in E as (slog' & tlog' & (S' & T') & Pl & Q2 & D2 & _ & _).
  change (sequence_log c) with (sequence_log b) in S'. change (timeds_log c) with (timeds_log b) in T'. rewrite S in S'. rewrite T in T'. injection S' as <-. injection T' as <-.
  assert (Dk2 : dots_ok d2) by (rewrite D2; apply record_dots_ok; [exact Dk | apply log_dots_dot]).
  unfold timing_tail in H. change (b_ignore_trailing c) with (b_ignore_trailing b) in H. change (b_autos c) with (b_autos b) in H. rewrite Tr, Au in H. cbv iota in H.
  inv_bind H. rename a into q3. rename E into Q3.
  assert (G3 : good q3) by (eapply (good_q4 c sp2); [exact Pl | exact Q2 | exact Dk2 | exact Q3 | change (b_autos c) with (b_autos b); rewrite Au; reflexivity]).
  cbn [bind] in H. rewrite process_all_dots_eq in Q3 by exact Dk2.
  assert (B3 : Permutation (map anon (q_heap q3)) (map entry (entries_of b (slog ++ tlog)))).
  { apply adds_bag in Q2. apply adds_bag in Q3. rewrite Q3, Q2. cbn. unfold entries_of. rewrite map_app, D2. reflexivity. }
  apply (proj2 (anon_known _ _ B3)). inv_bind H. destruct a as [q5 pr5]. inv_bind H. clear H. destruct (b_fight_start c) as [z|].
  - injection E as <- <-. eapply remove_known; [exact G3 | exact E0].
  - unfold shift_timelines in E. inv_bind E. intros e He. eapply first_damage_known; [exact E1 | exact He].
Qed.
Lemma run_exists b slog tlog :
  dots_ok (b_dots b) -> b_autos b = false -> b_ignore_trailing b = false -> sequence_log b = Ok slog -> timeds_log b = Ok tlog ->
  all_known (entries_of b (slog ++ tlog)) -> exists r, get_skill_timing b = Ok r.
Proof.
  intros Dk Au Tr S T K. rewrite get_skill_timing_eq. cbv zeta. set (w := process_downtime_windows b) in *. set (c := with_windows b w) in *.
  assert (exists x, presses_pass c = Ok x) as ([[[q2 d2] pr2] sp2] & Pp).
  { unfold presses_pass. change (sequence_log c) with (sequence_log b). change (timeds_log c) with (timeds_log b). rewrite S, T. cbn [bind]. unfold log_pass.
    destruct (api_adds_total (flat_map press_entries (slog ++ tlog)) q_init) as (q2 & ->). cbn [bind]. eauto. }
  rewrite Pp. cbn [bind]. apply presses_pass_spec in Pp as (slog' & tlog' & (S' & T') & Pl & Q2 & D2 & _ & _).
  change (sequence_log c) with (sequence_log b) in S'. change (timeds_log c) with (timeds_log b) in T'. rewrite S in S'. rewrite T in T'. injection S' as <-. injection T' as <-.
  assert (Dk2 : dots_ok d2) by (rewrite D2; apply record_dots_ok; [exact Dk | apply log_dots_dot]).
  unfold timing_tail. change (b_ignore_trailing c) with (b_ignore_trailing b). change (b_autos c) with (b_autos b). rewrite Tr, Au. cbv iota.
  assert (exists q3, process_all_dots (b_snap_dots c) d2 None q2 = Ok q3) as (q3 & Q3) by (rewrite process_all_dots_eq by exact Dk2; apply api_adds_total).
  rewrite Q3. cbn [bind].
  assert (G3 : good q3) by (eapply (good_q4 c sp2); [exact Pl | exact Q2 | exact Dk2 | exact Q3 | change (b_autos c) with (b_autos b); rewrite Au; reflexivity]).
  rewrite process_all_dots_eq in Q3 by exact Dk2.
  assert (B3 : Permutation (map anon (q_heap q3)) (map entry (entries_of b (slog ++ tlog)))).
  { apply adds_bag in Q2. apply adds_bag in Q3. rewrite Q3, Q2. cbn. unfold entries_of. rewrite map_app, D2. reflexivity. }
  pose proof (proj1 (anon_known _ _ B3) K) as K3.
  assert (Sh : exists q5 pr5, (match b_fight_start c with None => shift_timelines q3 pr2 | Some _ => Ok (q3, pr2) end) = Ok (q5, pr5) /\ good q5 /\ damage_known q5).
  { destruct (b_fight_start c) as [z|]; [exists q3, pr2; auto|]. destruct (shift_total q3 pr2 G3 K3) as (q5 & pr5 & E). exists q5, pr5. split; [exact E|].
    apply shift_timelines_spec in E as (d & _ & G5 & P5 & _); [|exact G3]. split; [exact G5|].
    intros e He. apply (in_map anon) in He. apply (Permutation_in _ P5) in He. apply in_map_iff in He as (a & Ea & Ha). apply in_map_iff in Ha as (e' & <- & He').
    destruct (K3 e' He') as (x & X). exists x. replace (ev_skill e) with (ev_skill e') by (apply (f_equal ev_skill) in Ea; exact Ea).
    replace (ev_modifier e) with (ev_modifier e') by (apply (f_equal ev_modifier) in Ea; exact Ea). exact X. }
  destruct Sh as (q5 & pr5 & -> & G5 & K5). cbn [bind]. destruct (remove_total (b_windows c) q5 G5 K5) as (q6 & ->). cbn [bind]. eauto.
Qed.

(** ** Sorted presses *)

Lemma filter_split {A} (f : A -> bool) x : forall l a b, filter f l = (a ++ x :: b)%list ->
  exists l1 l2, l = (l1 ++ x :: l2)%list /\ filter f l1 = a /\ filter f l2 = b.
Proof.
  induction l as [|y l IH]; intros a b H; cbn in H; [destruct a; discriminate H|]. destruct (f y) eqn:E.
  - destruct a as [|z a]; cbn in H; injection H as -> H.
    + exists [], l. auto.
    + destruct (IH _ _ H) as (l1 & l2 & -> & <- & <-). exists (z :: l1), l2. cbn. rewrite E. auto.
  - destruct (IH _ _ H) as (l1 & l2 & -> & <- & <-). exists (y :: l1), l2. cbn. rewrite E. auto.
Qed.
Lemma sorted_remove {A} (R : A -> A -> Prop) l1 x l2 : StronglySorted R (l1 ++ x :: l2) -> StronglySorted R (l1 ++ l2).
Proof.
  induction l1 as [|y l1 IH]; cbn; intros H; inversion H as [|? ? S F]; subst; [exact S|]. constructor; [auto|].
  apply Forall_app in F as (F1 & F2). apply Forall_app. split; [exact F1|]. inversion F2; assumption.
Qed.
Lemma order_unique o : forall o', StronglySorted (fun x y => pr_time x <= pr_time y) o -> StronglySorted (fun x y => pr_time x <= pr_time y) o' ->
  (forall t, filter (fun x => pr_time x =? t) o = filter (fun x => pr_time x =? t) o') -> o = o'.
Proof.
  induction o as [|x o IH]; intros o' S S' F.
  - destruct o' as [|y o']; [reflexivity|]. specialize (F (pr_time y)). cbn in F. rewrite Z.eqb_refl in F. discriminate F.
  - destruct o' as [|y o']; [specialize (F (pr_time x)); cbn in F; rewrite Z.eqb_refl in F; discriminate F|].
    inversion S as [|? ? S1 F1]; subst. inversion S' as [|? ? S1' F1']; subst. rewrite Forall_forall in F1, F1'.
    assert (I1 : In y (x :: o)).
    { assert (X : In y (filter (fun z => pr_time z =? pr_time y) (y :: o'))) by (apply filter_In; split; [left; reflexivity | apply Z.eqb_refl]). rewrite <- F in X. apply filter_In in X. apply X. }
    assert (I2 : In x (y :: o')).
    { assert (X : In x (filter (fun z => pr_time z =? pr_time x) (x :: o))) by (apply filter_In; split; [left; reflexivity | apply Z.eqb_refl]). rewrite F in X. apply filter_In in X. apply X. }
    assert (T : pr_time x = pr_time y).
    { destruct I1 as [->|I1]; [reflexivity|]. destruct I2 as [->|I2]; [reflexivity|]. specialize (F1 _ I1). specialize (F1' _ I2). cbn in F1, F1'. lia. }
    assert (x = y) as <-. { pose proof (F (pr_time x)) as E. cbn in E. rewrite T, Z.eqb_refl in E. injection E as E _. exact E. }
    f_equal. apply IH; [exact S1 | exact S1'|]. intros t. specialize (F t). cbn in F. destruct (pr_time x =? t); [injection F as F; exact F | exact F].
Qed.
Lemma order_remove A x B out : in_time_order (A ++ x :: B) out ->
  exists a b, out = (a ++ x :: b)%list /\ in_time_order (A ++ B) (a ++ b).
Proof.
  intros (S & P & F). pose proof (F (pr_time x)) as E. rewrite filter_app in E. cbn [filter] in E. rewrite Z.eqb_refl in E.
  apply filter_split in E as (a & b & -> & Ea & Eb). exists a, b. split; [reflexivity|]. split; [eapply sorted_remove, S|]. split; [eapply Permutation_app_inv, P|].
  intros t. rewrite !filter_app. destruct (Z.eq_dec t (pr_time x)) as [->|Nt]; [rewrite Ea, Eb; reflexivity|].
  specialize (F t). rewrite !filter_app in F. cbn [filter] in F. destruct (Z.eqb_spec (pr_time x) t) as [?|_]; [congruence|]. exact F.
Qed.

(** ** One press less *)

Lemma moves_fun s l d d' : moves s l d -> moves s l d' -> d = d'.
Proof.
  unfold moves. destruct s as [z|]; [congruence|]. intros [((e & c & I & D & T) & M)|(-> & N)] [((e' & c' & I' & D' & T') & M')|(-> & N')].
  - specialize (M _ _ _ I' D' T'). specialize (M' _ _ _ I D T). lia.
  - destruct (N' _ _ I D).
  - destruct (N _ _ I' D').
  - reflexivity.
Qed.
Lemma moves_less s x l d : (forall c, ~ damages x c) -> moves s (x :: l) d -> moves s l d.
Proof.
  intros N. unfold moves. destruct s as [z|]; [auto|]. intros [((e & c & I & D & T) & M)|(-> & K)].
  - left. split; [|intros; eapply M; [right|..]; eassumption]. exists e, c. destruct I as [<-|I]; [destruct (N c D)|]. auto.
  - right. split; [reflexivity|]. intros. apply K. right. assumption.
Qed.
Lemma kept_all {A} (P : A -> Prop) l : (forall x, P x) -> kept P l l.
Proof. intros H. induction l; constructor; auto. Qed.
Lemma downtimed_free w x l n : (forall c, ~ damages x c) -> ev_targets x <> [] -> downtimed w (x :: l) n ->
  exists n', n = x :: n' /\ downtimed w l n'.
Proof.
  intros N T D. assert (K : kept (spared w x) (ev_targets x) (ev_targets x)) by (apply kept_all; intros t c z Dm; destruct (N c Dm)).
  inversion D as [|? ? ? K1 D1|? tg ? n' K1 N1 D1]; subst.
  - destruct T. exact (kept_fun _ _ _ _ K K1).
  - rewrite <- (kept_fun _ _ _ _ K K1). exists n'. split; [destruct x; reflexivity | exact D1].
Qed.

Lemma follow_built l : forall b b', built b -> follow b l = Ok b' -> built b'.
Proof.
  intros b b' B. unfold follow. apply (foldM_inv _ built); [exact B|]. intros s [c n|t c] s' _ Bs H; cbn [carry_out] in H; [eapply built_add_next | eapply built_add]; eassumption.
Qed.

Lemma dots_keys l : forall d k, In k (dkeys (fold_left record_dot l d)) -> In k (dkeys d) \/ In k (map (fun x => fst (fst x)) l).
Proof.
  induction l as [|[[tg fu] e] l IH]; intros d k H; [left; exact H|]. cbn [fold_left map fst snd] in *. apply IH in H as [H|H]; [|right; right; exact H].
  unfold record_dot, add_dot_target in H. unfold dkeys in *. apply in_map_iff in H as ([k' v] & <- & I). apply dset_in in I as [[= -> ->]|I]; [right; left; reflexivity | left; apply (in_map fst _ _ I)].
Qed.
Lemma ticks_targets b slog tlog c t :
  built b -> rotation_played b slog tlog ->
  In c (all_dot_calls (b_snap_dots b) None (fold_left record_dot (flat_map press_dots (slog ++ tlog)) (b_dots b))) -> In t (ad_targets c) -> In t (b_targets b).
Proof.
  intros B P Hc Ht. destruct (built_fresh b B) as (Bd & _). rewrite Bd in Hc. unfold all_dot_calls in Hc. apply in_flat_map in Hc as ([k v] & Hk & Hc).
  apply in_flat_map in Hc as (x & _ & Hc). cbn [fst snd] in *. unfold dot_calls in Hc. destruct (fu_dot (fst x)) as [dur|]; [|destruct Hc].
  assert (E : ad_targets c = [k]).
  { revert Hc. generalize 0. generalize (dot_ticks (b_snap_dots b) None dur (snd x)). intros ticks. induction ticks as [|[e z] l IH]; intros n H; [destruct H|]. destruct H as [<-|H]; [reflexivity | eapply IH, H]. }
  rewrite E in Ht. destruct Ht as [<-|[]]. apply (in_map fst) in Hk. apply dots_keys in Hk as [[]|Hk]. cbn [fst] in Hk. apply in_map_iff in Hk as (y & Ey & Hy).
  apply in_flat_map in Hy as (p & Hp & Hy). apply press_dots_targets in Hy as (Hy & _). rewrite Ey in Hy. eapply played_targets; eassumption.
Qed.

Lemma run_less b b' slog tlog slog' tlog' l1 p l2 r :
  built b -> built b' -> b_autos b = false -> b_ignore_trailing b = false -> same_settings b b' -> (forall t, In t (b_targets b') -> In t (b_targets b)) ->
  sequence_log b = Ok slog -> timeds_log b = Ok tlog -> sequence_log b' = Ok slog' -> timeds_log b' = Ok tlog' ->
  (slog ++ tlog = l1 ++ p :: l2)%list -> (slog' ++ tlog' = l1 ++ l2)%list -> pl_follow_ups p = [] -> (b_fight_start b <> None \/ idle (pl_skill p)) -> pl_targets p <> [] ->
  get_skill_timing b = Ok r -> exists r', get_skill_timing b' = Ok r' /\ at_most_one_more (pl_skill p) r' r /\ (idle (pl_skill p) -> one_more (pl_skill p) r' r).
Proof.
  intros B B' Au Tr (E1 & E2 & E3 & E4 & E5 & E6 & E7 & E8 & E9) Tg S T S' T' L L' Pf Id Pt H.
  pose proof (reachable_dots _ (built_reachable _ B)) as Dk. pose proof (reachable_dots _ (built_reachable _ B')) as Dk'.
  destruct (built_fresh b B) as (Bd & _). destruct (built_fresh b' B') as (Bd' & _).
  assert (Au' : b_autos b' = false) by congruence. assert (Tr' : b_ignore_trailing b' = false) by congruence.
  assert (Pe : press_entries p = [main_entry p]) by (unfold press_entries; rewrite Pf; reflexivity).
  assert (Pd : press_dots p = []) by (unfold press_dots; rewrite Pf; reflexivity).
  assert (Ed : flat_map press_dots (slog ++ tlog) = flat_map press_dots (slog' ++ tlog')) by (rewrite L, L', !flat_map_app; cbn [flat_map]; rewrite Pd; reflexivity).
  set (ticks := all_dot_calls (b_snap_dots b) None (fold_left record_dot (flat_map press_dots (slog ++ tlog)) (b_dots b))).
  assert (Ee : Permutation (entries_of b (slog ++ tlog)) (main_entry p :: entries_of b' (slog' ++ tlog'))).
  { unfold entries_of. rewrite E3, Bd', <- Bd, <- Ed. fold ticks. rewrite L, L', !flat_map_app. cbn [flat_map]. rewrite Pe. cbn [app]. rewrite <- !app_assoc. cbn [app]. symmetry. apply Permutation_middle. }
  pose proof (run_known b r slog tlog Dk Au Tr S T H) as K.
  destruct (run_exists b' slog' tlog' Dk' Au' Tr' S' T') as (r' & H').
  { intros c Hc. apply K. eapply Permutation_in; [symmetry; exact Ee | right; exact Hc]. }
  exists r'. split; [exact H'|].
  apply run_logs in H; [|exact Dk]. apply run_logs in H'; [|exact Dk'].
  destruct H as (s1 & t1 & q2 & autos & d & X). cbv zeta in X. destruct H' as (s2 & t2 & q2' & autos' & d' & X'). cbv zeta in X'.
  destruct X as ((A1 & A2) & P & _ & _ & Na & M & (evs & Dt & Pm) & _ & Sh & _). destruct X' as ((A1' & A2') & P' & _ & _ & Na' & M' & (evs' & Dt' & Pm') & _ & Sh' & _).
  rewrite S in A1. injection A1 as <-. rewrite T in A2. injection A2 as <-. rewrite S' in A1'. injection A1' as <-. rewrite T' in A2'. injection A2' as <-.
  rewrite (Na Au), Tr, app_nil_r in *. rewrite (Na' Au'), Tr', app_nil_r in *.
  fold (entries_of b (slog ++ tlog)) in M, Dt. fold (entries_of b' (slog' ++ tlog')) in M', Dt'.
  assert (Nd : idle (pl_skill p) -> forall c, ~ damages (entry (main_entry p)) c).
  { clear Id. intros Id c (spec & G & _). cbn in G. destruct (Id (pl_modifier p)) as (G' & _). congruence. }
  pose proof (Permutation_map entry Ee) as Ee'. cbn [map] in Ee'.
  assert (d' = d) as ->.
  { destruct Id as [Id|Id]; [unfold moves in M, M'; rewrite E6 in M'; destruct (b_fight_start b); congruence|].
    eapply moves_fun; [exact M'|]. rewrite E6. eapply moves_less; [exact (Nd Id)|]. eapply moves_perm; [exact Ee' | exact M]. }
  pose proof (Permutation_map (earlier d) Ee') as Ep. cbn [map] in Ep.
  destruct (downtimed_perm _ _ _ Ep _ Dt) as (n & Dn & Pn).
  assert (Rest : forall n', downtimed (windows_of b) (map (earlier d) (map entry (entries_of b' (slog' ++ tlog')))) n' -> n' = evs').
  { intros n' Dn'. eapply downtimed_fun; [|exact Dt']. eapply downtimed_ext; [|exact Dn']. intros e t He Ht.
    apply in_map_iff in He as (e0 & <- & He). apply in_map_iff in He as (c & <- & Hc). cbn [earlier ev_targets] in Ht. rewrite entry_targets in Ht.
    assert (It : In t (b_targets b')).
    { unfold entries_of in Hc. apply in_app_or in Hc as [Hc|Hc].
      - apply in_flat_map in Hc as (p' & Hp & Hc). eapply played_targets; [exact B' | exact P' | exact Hp|]. eapply press_entry_targets; eassumption.
      - eapply (ticks_targets b'); eassumption. }
    unfold windows_of. rewrite E7. destruct (b_windows b); [|reflexivity].
    destruct (in_dec String.string_dec t (b_targets b')) as [_|Nt]; [|contradiction]. destruct (in_dec String.string_dec t (b_targets b)) as [_|Nt]; [reflexivity|]. destruct Nt. apply Tg, It. }
  assert (Prs : exists x before after, pr_name x = sk_name (pl_skill p)
        /\ get_button_press_timing r = (before ++ x :: after)%list /\ get_button_press_timing r' = (before ++ after)%list).
  { rewrite L, L' in *. rewrite !map_app in Sh, Sh'. cbn [map] in Sh. rewrite E1 in Sh'.
    destruct (order_remove _ _ _ _ Sh) as (x & y & Eo & So). eexists _, x, y. split; [|split; [exact Eo|]]; [reflexivity|].
    destruct So as (So1 & _ & So2). destruct Sh' as (Sh1 & _ & Sh2). apply order_unique; [exact Sh1 | exact So1|]. intros t. rewrite Sh2, So2. reflexivity. }
  split; [split; [|exact Prs]|intros Ix; split; [|exact Prs]].
  - change (?x :: ?l) with ([x] ++ l)%list in Dn. apply downtimed_app_inv in Dn as (n1 & n2 & -> & D1 & D2). rewrite (Rest _ D2) in Pn. exists n1.
    split; [|split; [|rewrite Pm, Pn, Pm'; reflexivity]]; inversion D1 as [|? ? ? ? D3|? ? ? ? ? ? D3]; subst; inversion D3; subst; cbn; auto.
  - apply downtimed_free in Dn as (n' & -> & Dn); [|intros c G; apply (Nd Ix c); exact G | exact Pt].
    exists (earlier d (entry (main_entry p))). split; [reflexivity|]. rewrite Pm, Pn. constructor. rewrite (Rest _ Dn). symmetry. exact Pm'.
Qed.

(** ** Calls left out *)

Lemma fresh_quiet b name tk : uncounted b name -> new_trackers (b_library b) (st_job (b_stats b)) (b_priority b) = Ok tk -> quiet_tk name tk.
Proof.
  intros (_ & U) H. unfold new_trackers in H. inv_bind H. inv_bind H. injection H as <-. split.
  - split; [apply quiet_nil | intros ? ? []].
  - intros n cfg l I. cbn [tk_jr] in I. unfold jr_init in I. apply in_map_iff in I as ([n0 c0] & [= <- <- <-] & I). exact (U _ _ _ E I).
Qed.
Lemma same_after_less b0 l1 i l2 : same_settings (left_by b0 (l1 ++ i :: l2)) (left_by b0 (l1 ++ l2))
  /\ forall t, In t (b_targets (left_by b0 (l1 ++ l2))) -> In t (b_targets (left_by b0 (l1 ++ i :: l2))).
Proof.
  split; [repeat split|]. intros t. cbn [b_targets left_by]. change (fold_left (fun acc x => sadd x acc) ?a ?b) with (set_union b a). rewrite !set_union_in.
  intros [I|I]; [left; exact I | right]. rewrite flat_map_app in *. apply in_app_or in I as [I|I]; apply in_or_app; [left; exact I | right]. cbn [flat_map]. apply in_or_app. right. exact I.
Qed.

Lemma timed_fewer b0 l1 t c l2 s b r :
  built b0 -> b_autos b0 = false -> b_ignore_trailing b0 = false -> follow b0 (l1 ++ PressAt t c :: l2) = Ok b -> distinct_times b ->
  skill_for b0 c = Ok s -> grants_nothing s -> (b_fight_start b <> None \/ idle s) -> uncounted b (sk_name s) -> get_skill_timing b = Ok r ->
  exists b' r', follow b0 (l1 ++ l2) = Ok b' /\ get_skill_timing b' = Ok r' /\ at_most_one_more s r' r /\ (idle s -> one_more s r' r).
Proof.
  intros B0 Au Tr F D Sk Gn Id U H. pose proof F as F0. apply follow_spec in F as (K & ->). exists (left_by b0 (l1 ++ l2)).
  assert (F' : follow b0 (l1 ++ l2) = Ok (left_by b0 (l1 ++ l2))).
  { apply follow_spec. split; [|reflexivity]. apply Forall_app in K as (K1 & K2). inversion K2; subst. apply Forall_app. auto. }
  pose proof (follow_built _ _ _ B0 F0) as B. pose proof (follow_built _ _ _ B0 F') as B'. destruct (same_after_less b0 l1 (PressAt t c) l2) as (Se & Tg).
  set (b := left_by b0 (l1 ++ PressAt t c :: l2)) in *. set (b' := left_by b0 (l1 ++ l2)) in *.
  pose proof (run_logs b r H (reachable_dots _ (built_reachable _ B))) as (slog & tlog & q2 & au & d & X). cbv zeta in X. destruct X as ((S & T) & _). clear q2 au d.
  assert (S' : sequence_log b' = Ok slog).
  { rewrite <- S. unfold sequence_log. replace (b_sequence b') with (b_sequence b); [reflexivity|]. cbn. f_equal. rewrite !flat_map_app. reflexivity. }
  set (x := mkTimed (qtrunc (fmul (q 1000) t)) s (modifier_or_default b0 s (c_modifier c) (job_or_default b0 (c_job c))) (job_or_default b0 (c_job c)) (tags b0 c)).
  set (A := (b_timed b0 ++ flat_map (timeds_of b0) l1)%list). set (C := flat_map (timeds_of b0) l2).
  assert (Eb : b_timed b = (A ++ x :: C)%list).
  { cbn [b_timed b left_by]. unfold A, C. rewrite flat_map_app. cbn [flat_map]. unfold timeds_of at 2. cbn [instr_call]. rewrite Sk. rewrite <- app_assoc. reflexivity. }
  assert (Eb' : b_timed b' = (A ++ C)%list) by (cbn [b_timed b' left_by]; unfold A, C; rewrite flat_map_app, app_assoc; reflexivity).
  unfold timeds_log in T. inv_bind T. rename a into tk. rename E into Tk. inv_bind T. rename a into o. rename E into O. inv_bind T. destruct a as [lg rr]. injection T as ->.
  rewrite Eb in O. pose proof O as O0. apply timed_order_spec in O as (Po & So).
  assert (Ix : In x o) by (apply (Permutation_in _ Po), in_or_app; right; left; reflexivity). apply in_split in Ix as (o1 & o2 & ->).
  unfold distinct_times in D. rewrite Eb in D.
  assert (Pc : Permutation (A ++ C) (o1 ++ o2)) by (eapply Permutation_app_inv; exact Po).
  assert (O' : timed_order (A ++ C) = Ok (o1 ++ o2)%list).
  { rewrite (same_order_of _ _ Pc); [apply order_of_sorted|].
    - apply sorted_remove with (x := x). apply sorted_le_lt; [|exact So]. eapply Permutation_NoDup; [apply Permutation_map, Po | exact D].
    - rewrite map_app in *. cbn [map] in D. eapply NoDup_remove_1, D. }
  assert (Fl : Forall (fun y => tm_time x <= tm_time y) o2).
  { clear - So. induction o1 as [|z o1 IH]; cbn in So; inversion So as [|? ? S1 F1]; subst; [exact F1 | auto]. }
  destruct (timed_without (sk_name s) (b_stats b) x o2 eq_refl Gn Fl o1 tk tlog rr) as (k1 & p & k2 & r' & -> & Pf & Ps & Pt & L'); [| |exact E|].
  - intros y Iy p0 e. apply (proj1 U). unfold SpecRun.skills_of. apply in_or_app. right. rewrite Eb. apply in_map. apply (Permutation_in _ (Permutation_sym Po)), in_or_app. left. exact Iy.
  - exact (fresh_quiet _ _ _ U Tk).
  - assert (T' : timeds_log b' = Ok (k1 ++ k2)%list).
    { unfold timeds_log. change (new_trackers (b_library b') (st_job (b_stats b')) (b_priority b')) with (new_trackers (b_library b) (st_job (b_stats b)) (b_priority b)).
      rewrite Tk. cbn [bind]. rewrite Eb', O'. cbn [bind]. change (b_stats b') with (b_stats b). rewrite L'. reflexivity. }
    assert (T0 : timeds_log b = Ok (k1 ++ p :: k2)%list) by (unfold timeds_log; rewrite Tk; cbn [bind]; rewrite Eb, O0; cbn [bind]; rewrite E; reflexivity).
    assert (Ip : b_fight_start b <> None \/ idle (pl_skill p)) by (rewrite Ps; exact Id).
    destruct (run_less b b' slog (k1 ++ p :: k2) slog (k1 ++ k2) (slog ++ k1) p k2 r B B' Au Tr Se Tg S T0 S' T') as (r1 & H1 & M); [rewrite <- app_assoc; reflexivity | rewrite <- app_assoc; reflexivity | exact Pf | exact Ip | exact Pt | exact H|].
    exists r1. split; [exact F'|]. split; [exact H1|]. rewrite Ps in M. exact M.
Qed.

Lemma timed_left_out b0 l1 t c l2 s b r :
  built b0 -> b_autos b0 = false -> b_ignore_trailing b0 = false -> follow b0 (l1 ++ PressAt t c :: l2) = Ok b -> distinct_times b ->
  skill_for b0 c = Ok s -> idle s -> uncounted b (sk_name s) -> get_skill_timing b = Ok r ->
  exists b' r', follow b0 (l1 ++ l2) = Ok b' /\ get_skill_timing b' = Ok r' /\ one_more s r' r.
Proof.
  intros B0 Au Tr F D Sk Id U H. destruct (timed_fewer _ _ _ _ _ _ _ _ B0 Au Tr F D Sk (idle_grants s Id) (or_intror Id) U H) as (b' & r' & F' & H' & _ & O).
  exists b', r'. split; [exact F'|]. split; [exact H'|exact (O Id)].
Qed.

Lemma next_fewer b0 l1 c l2 s b1 b r :
  built b0 -> b_autos b0 = false -> b_ignore_trailing b0 = false -> follow b0 l1 = Ok b1 -> follow b0 (l1 ++ NextPress c 1 :: l2) = Ok b ->
  skill_for b0 c = Ok s -> grants_nothing s -> (b_fight_start b <> None \/ idle s) -> sk_is_GCD s = false -> uncounted b (sk_name s) -> nonneg_locks b ->
  fits b (List.length (b_sequence b1)) -> get_skill_timing b = Ok r ->
  exists b' r', follow b0 (l1 ++ l2) = Ok b' /\ get_skill_timing b' = Ok r' /\ at_most_one_more s r' r /\ (idle s -> one_more s r' r).
Proof.
  intros B0 Au Tr F1 F Sk Gn Id Ng U Lk Fi H. pose proof F as F0. apply follow_spec in F1 as (_ & ->). apply follow_spec in F as (K & ->). exists (left_by b0 (l1 ++ l2)).
  assert (F' : follow b0 (l1 ++ l2) = Ok (left_by b0 (l1 ++ l2))).
  { apply follow_spec. split; [|reflexivity]. apply Forall_app in K as (K1 & K2). inversion K2; subst. apply Forall_app. auto. }
  pose proof (follow_built _ _ _ B0 F0) as B. pose proof (follow_built _ _ _ B0 F') as B'. destruct (same_after_less b0 l1 (NextPress c 1) l2) as (Se & Tg).
  set (b := left_by b0 (l1 ++ NextPress c 1 :: l2)) in *. set (b' := left_by b0 (l1 ++ l2)) in *.
  pose proof (run_logs b r H (reachable_dots _ (built_reachable _ B))) as (slog & tlog & q2 & au & d & X). cbv zeta in X. destruct X as ((S & T) & Pl & _). clear q2 au d.
  assert (T' : timeds_log b' = Ok tlog).
  { rewrite <- T. unfold timeds_log. replace (b_timed b') with (b_timed b); [reflexivity|]. cbn. f_equal. rewrite !flat_map_app. reflexivity. }
  set (x := mkSeq s (modifier_or_default b0 s (c_modifier c) (job_or_default b0 (c_job c))) (job_or_default b0 (c_job c)) (tags b0 c)).
  set (A := (b_sequence b0 ++ flat_map (seqs_of b0) l1)%list). set (C := flat_map (seqs_of b0) l2).
  assert (Eb : b_sequence b = (A ++ x :: C)%list).
  { cbn [b_sequence b left_by]. unfold A, C. rewrite flat_map_app. cbn [flat_map]. unfold seqs_of at 2. cbn [instr_call]. rewrite Sk. rewrite <- app_assoc. reflexivity. }
  assert (Eb' : b_sequence b' = (A ++ C)%list) by (cbn [b_sequence b' left_by]; unfold A, C; rewrite flat_map_app, app_assoc; reflexivity).
  pose proof S as S0. unfold sequence_log in S. inv_bind S. rename a into tk. rename E into Tk. inv_bind S. destruct a as [lg rr]. injection S as ->. rewrite Eb in E.
  assert (Lx : forall m spec, get_timing_spec s m = Ok (Some spec) -> 0 <= animation_lock spec).
  { intros m spec G. eapply (Lk s); [|exact G]. unfold SpecRun.skills_of. apply in_or_app. left. rewrite Eb, map_app. apply in_or_app. right. left. reflexivity. }
  destruct (seq_without (sk_name s) (b_stats b) x C eq_refl Gn Ng Lx A tk (match b_fight_start b with Some t => t | None => 0 end) None slog rr) as (k1 & p & k2 & r' & -> & Pf & Ps & Pt & L'); [|exact (fresh_quiet _ _ _ U Tk)|exact E| |].
  - intros y Iy p0 e. apply (proj1 U). unfold SpecRun.skills_of. apply in_or_app. left. apply in_map. rewrite Eb. apply in_or_app. left. exact Iy.
  - intros p y Ip Iy. exact (Fi _ _ _ _ Pl Ip Iy).
  - assert (S' : sequence_log b' = Ok (k1 ++ k2)%list).
    { unfold sequence_log. change (new_trackers (b_library b') (st_job (b_stats b')) (b_priority b')) with (new_trackers (b_library b) (st_job (b_stats b)) (b_priority b)).
      rewrite Tk. cbn [bind]. rewrite Eb'. change (b_stats b') with (b_stats b). change (b_fight_start b') with (b_fight_start b). rewrite L'. reflexivity. }
    assert (Ip : b_fight_start b <> None \/ idle (pl_skill p)) by (rewrite Ps; exact Id).
    destruct (run_less b b' (k1 ++ p :: k2) tlog (k1 ++ k2) tlog k1 p (k2 ++ tlog) r B B' Au Tr Se Tg S0 T S' T') as (r1 & H1 & M); [rewrite <- app_assoc; reflexivity | rewrite <- app_assoc; reflexivity | exact Pf | exact Ip | exact Pt | exact H|].
    exists r1. split; [exact F'|]. split; [exact H1|]. rewrite Ps in M. exact M.
Qed.
Lemma next_left_out b0 l1 c l2 s b1 b r :
  built b0 -> b_autos b0 = false -> b_ignore_trailing b0 = false -> follow b0 l1 = Ok b1 -> follow b0 (l1 ++ NextPress c 1 :: l2) = Ok b ->
  skill_for b0 c = Ok s -> idle s -> sk_is_GCD s = false -> uncounted b (sk_name s) -> nonneg_locks b -> fits b (List.length (b_sequence b1)) -> get_skill_timing b = Ok r ->
  exists b' r', follow b0 (l1 ++ l2) = Ok b' /\ get_skill_timing b' = Ok r' /\ one_more s r' r.
Proof.
  intros B0 Au Tr F1 F Sk Id Ng U Lk Fi H. destruct (next_fewer _ _ _ _ _ _ _ _ B0 Au Tr F1 F Sk (idle_grants s Id) (or_intror Id) Ng U Lk Fi H) as (b' & r' & F' & H' & _ & O).
  exists b', r'. split; [exact F'|]. split; [exact H'|exact (O Id)].
Qed.
