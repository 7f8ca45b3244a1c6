(** * Runs that never raise *)

From Coq Require Import ZArith QArith Qround List String Bool Lia Permutation.
From Verif Require Import Base BaseFacts Float Heap HeapFacts Strings Types Lookup CondFacts StatusEffect JobResource Combo Channeling Stats Library
  Events Rotation SpecQueue EventsFacts SpecTimeline TimelineFacts SpecGame SpecRun SpecAuto SpecSafe AutoFacts AutoProps RunProps ApiFacts FuelFacts.
Import ListNotations.
Open Scope string_scope.
Open Scope Z_scope.

Local Opaque fl.

(** ** Lists and dicts *)

Lemma dset_in {V} k (v : V) d x : In x (dset k v d) -> x = (k, v) \/ In x d.
Proof.
  induction d as [|[k' v'] d IH]; cbn; [intros [<-|[]]; auto|].
  destruct (String.eqb_spec k k') as [->|N]; cbn; intros [<-|H]; auto. destruct (IH H); auto.
Qed.
Lemma dset_key_in {V} k (v : V) d n : In n (dkeys d) -> In n (dkeys (dset k v d)).
Proof.
  unfold dkeys. induction d as [|[k' v'] d IH]; cbn; [tauto|].
  destruct (String.eqb_spec k k'); cbn; tauto.
Qed.
Lemma fold_left_inv {A S} (f : S -> A -> S) (P : S -> Prop) l : forall s,
  P s -> (forall s a, In a l -> P s -> P (f s a)) -> P (fold_left f l s).
Proof. induction l as [|a l IH]; cbn; intros s H F; [exact H|]. apply IH; auto. Qed.

Lemma push_total {A} (lt : A -> A -> res bool) h x :
  (forall a b, exists r, lt a b = Ok r) -> exists h', heappush lt h x = Ok h'.
Proof. intros T. apply heappush_total. intros a b _ _. apply T. Qed.
Lemma drain_any {A} (lt : A -> A -> res bool) fuel h :
  total_on lt h -> (List.length h <= fuel)%nat ->
  exists l, drain lt fuel h = Ok l /\ Permutation h l.
Proof.
  intros T L. pose (le := fun _ _ : A => True).
  destruct (drain_total lt le) with (fuel := fuel) (h := h) as (l & E);
    [exact (fun _ => I)|exact (fun _ _ _ _ _ => I)|exact (fun _ _ _ => I)|exact (fun _ _ _ => I)|exact (fun _ _ _ _ _ _ => I)|exact T|exact L|].
  exists l. split; [exact E|].
  eapply (drain_spec lt le); [..|exact E]; repeat intro; exact I.
Qed.

(** ** Lookups return declared values *)

Lemma cget_in {V} k (d : list (cond * V)) v : cget k d = Some v -> exists k', In (k', v) d.
Proof.
  induction d as [|[k0 v0] d IH]; cbn; [discriminate|].
  destruct (cond_eqb k k0); [intros [= ->]; eauto|]. intros H. destruct (IH H) as (k' & I). eauto.
Qed.
Lemma clookup_declared {V} (d : list (cond * V)) wc v : clookup d wc = Ok v -> exists k, In (k, v) d.
Proof.
  unfold clookup. intros H. apply bind_ok in H as (k & _ & H). destruct (cget k d) eqn:E; [|discriminate].
  injection H as ->. exact (cget_in _ _ _ E).
Qed.
Lemma cspec_declared {A} (c : cspec A) m a : cspec_get c m = Ok (Some a) -> In a (cvalues c).
Proof.
  destruct c as [|x|d]; cbn; [discriminate|intros [= ->]; auto|]. intros H. apply clookup_declared in H as (k & I).
  apply in_flat_map. exists (k, Some a). cbn. auto.
Qed.
Lemma tspec_declared {A} (t : tspec A) m l a : tspec_get t m = Ok l -> In a l -> In a (tvalues t).
Proof.
  destruct t as [x|d]; cbn; [intros [= ->]; auto|]. destruct d as [|kv d]; [intros [= <-] []|].
  intros H I. apply clookup_declared in H as (k & J). apply in_flat_map. exists (k, l). auto.
Qed.

(** ** Modifiers *)

Lemma add_condition_bonus m c : sm_bonus_percent (add_to_condition m c) = sm_bonus_percent m.
Proof. destruct c; reflexivity. Qed.
Lemma positional_nodup s m m' : NoDup (sm_cond m) -> add_positional s m = Ok m' -> NoDup (sm_cond m').
Proof.
  unfold add_positional. intros N. destruct (get_positional_condition s m) as [c|e].
  - intros [= <-]. apply add_to_condition_nodup, N.
  - destruct e; try discriminate. intros [= <-]. exact N.
Qed.
Lemma positional_plain s m : sm_bonus_percent m = None -> exists m', add_positional s m = Ok m'.
Proof.
  intros E. unfold add_positional, get_positional_condition. rewrite E.
  destruct (positional_table s) as [t|]; [|eauto].
  destruct (existsb (fun kv => smem "No Positional" (fst kv)) t); eauto.
Qed.

Section Safe.
  Variables (skills : skill -> Prop) (resources : list string).
  Definition known (p : skill) : Prop := exists s, skills s /\ part_of p s.
  Hypothesis Usable : forall s, skills s -> usable resources s.
  Hypothesis Forces : never_both_force skills.

  Lemma known_self s : skills s -> known s.
  Proof. intros H. exists s. split; [exact H|constructor]. Qed.
  Lemma known_fu s fu : known s -> In fu (follow_ups_of s) -> known (fu_skill fu).
  Proof.
    intros (r & H & P) I. exists r. split; [exact H|]. clear H. revert fu I.
    induction P as [s|s fu' p J P IH]; intros fu I.
    - econstructor; [exact I|constructor].
    - econstructor; [exact J|]. apply IH, I.
  Qed.
  Lemma known_part p : known p -> usable_part resources p.
  Proof. intros (s & H & P). apply (Usable s H), P. Qed.
  Lemma known_lookups p m : known p -> NoDup (sm_cond m) ->
    all_lookups_succeed p m /\ exists f, get_follow_up_skills p m = Ok f.
  Proof. intros K. apply (known_part p K). Qed.

  (** ** Status effects *)

  Definition calm (d : dict active) : Prop :=
    NoDup (dkeys d) /\ forall n a, In (n, a) d -> exists p, known p /\ sk_name p = n /\ In (ac_spec a) (effects_of p).
  Definition se_calm (st : se_tracker) : Prop :=
    calm (se_buffs st) /\ forall tg d, In (tg, d) (se_debuffs st) -> calm d.

  Lemma calm_nil : calm [].
  Proof. split; [constructor|intros ? ? []]. Qed.
  Lemma calm_filter f d : calm d -> calm (filter f d).
  Proof. intros (N & H). split; [apply filter_nodup_keys, N|]. intros n a I. apply filter_In in I. apply H, I. Qed.
  Lemma calm_dset d n a : calm d -> (exists p, known p /\ sk_name p = n /\ In (ac_spec a) (effects_of p)) -> calm (dset n a d).
  Proof.
    intros (N & H) P. split; [apply dset_nodup, N|]. intros n' a' I. apply dset_in in I as [[= -> ->]|I]; [exact P|auto].
  Qed.
  Lemma calm_get d n a : calm d -> dget n d = Some a -> exists p, known p /\ sk_name p = n /\ In (ac_spec a) (effects_of p).
  Proof. intros (_ & H) E. apply H, dget_in, E. Qed.
  Lemma calm_add d t p sp : calm d -> known p -> In sp (effects_of p) -> calm (add_effect d t (sk_name p) sp).
  Proof.
    intros C K I. unfold add_effect. destruct (dget (sk_name p) d) as [prev|] eqn:E.
    - apply calm_dset; [exact C|]. exists p. auto.
    - destruct (extend_only sp); [exact C|]. apply calm_dset; [exact C|]. exists p. auto.
  Qed.
  Lemma calm_end d n t : calm d -> calm (end_effect d n t).
  Proof.
    intros C. unfold end_effect. destruct (dget n d) as [a|] eqn:E; [|exact C].
    apply calm_dset; [exact C|]. exact (calm_get _ _ _ C E).
  Qed.
  Lemma se_calm_init prio : se_calm (se_init prio).
  Proof. split; [apply calm_nil|intros ? ? []]. Qed.
  Lemma calm_debuffs st tg : se_calm st -> calm (get_debuffs st tg).
  Proof.
    intros (_ & H). unfold get_debuffs. destruct (dget tg (se_debuffs st)) as [d|] eqn:E; [|apply calm_nil].
    apply dget_in in E. exact (H _ _ E).
  Qed.
  Lemma se_calm_buffs st b : se_calm st -> calm b -> se_calm (set_buffs st b).
  Proof. intros (_ & H) C. split; [exact C|exact H]. Qed.
  Lemma se_calm_debuffs st tg d : se_calm st -> calm d -> se_calm (set_debuffs st tg d).
  Proof. intros (B & H) C. split; [exact B|]. intros tg' d' I. apply dset_in in I as [[= -> ->]|I]; [exact C|exact (H _ _ I)]. Qed.
  Lemma se_calm_named st n t tg : se_calm st -> se_calm (expire_named_effect st n t tg).
  Proof.
    intros C. unfold expire_named_effect. set (st1 := set_buffs st _).
    assert (C1 : se_calm st1) by (apply se_calm_buffs; [exact C|apply calm_end, C]).
    destruct (dget n (get_debuffs st1 tg)); [|exact C1]. apply se_calm_debuffs; [exact C1|]. apply calm_end, calm_debuffs, C1.
  Qed.
  Lemma se_calm_expire st t : se_calm st -> se_calm (expire_status_effects t st).
  Proof.
    intros (B & H). split; [apply calm_filter, B|]. cbn. intros tg d I. apply in_map_iff in I as ([tg' d'] & [= <- <-] & I).
    apply calm_filter. exact (H _ _ I).
  Qed.
  Lemma se_calm_buff st t p sp : se_calm st -> known p -> In sp (effects_of p) -> se_calm (apply_buff st t (sk_name p) sp).
  Proof.
    intros C K I. unfold apply_buff. apply fold_left_inv; [|intros; apply se_calm_named; assumption].
    apply se_calm_buffs; [exact C|]. apply calm_add; [|exact K|exact I]. destruct (clear_all_status_effects sp); [apply calm_nil|apply C].
  Qed.
  Lemma se_calm_debuff st t p sp tg : se_calm st -> known p -> In sp (effects_of p) -> se_calm (apply_debuff t (sk_name p) sp st tg).
  Proof.
    intros C K I. unfold apply_debuff. apply fold_left_inv; [|intros; apply se_calm_named; assumption].
    apply se_calm_debuffs; [exact C|]. apply calm_add; [|exact K|exact I]. apply calm_debuffs, C.
  Qed.
  Lemma add_status_safe st t p m tg : se_calm st -> known p -> NoDup (sm_cond m) ->
    exists st', add_to_status_effects st t p m tg = Ok st' /\ se_calm st'.
  Proof.
    intros C K N. destruct (known_lookups p m K N) as ((_ & _ & (b & Eb) & (d & Ed) & _) & _).
    unfold add_to_status_effects. rewrite Eb, Ed. cbn [bind]. eexists. split; [reflexivity|].
    set (st1 := match b with Some _ => _ | None => _ end).
    assert (C1 : se_calm st1).
    { unfold st1. destruct b as [sp|]; [|exact C]. apply se_calm_buff; [exact C|exact K|].
      apply in_or_app. left. exact (cspec_declared _ _ _ Eb). }
    destruct d as [sp|]; [|exact C1]. apply fold_left_inv; [exact C1|]. intros s a _ Hs.
    apply se_calm_debuff; [exact Hs|exact K|]. apply in_or_app. right. exact (cspec_declared _ _ _ Ed).
  Qed.

  (** *** Compiling them *)

  Lemma forced_eqb_default x : forced_eqb x F_DEFAULT = true <-> x = F_DEFAULT.
  Proof. destruct x; cbn; split; congruence. Qed.
  Lemma remove_first_in x y l : In x (remove_first y l) -> In x l.
  Proof. induction l as [|z l IH]; cbn; [tauto|]. destruct (String.eqb y z); cbn; tauto. Qed.
  Lemma remove_first_nodup y l : NoDup l -> NoDup (remove_first y l).
  Proof.
    induction l as [|z l IH]; cbn; [auto|]. inversion 1 as [|? ? N1 N2]; subst. destruct (String.eqb y z); [exact N2|].
    constructor; [|auto]. intros I. apply N1. exact (remove_first_in _ _ _ I).
  Qed.
  Lemma delete_lower_sub prio : forall l, NoDup l -> NoDup (delete_lower_priority prio l) /\ incl (delete_lower_priority prio l) l.
  Proof.
    induction prio as [|p rest IH]; intros l N; cbn; [split; [exact N|apply incl_refl]|]. destruct (smem p l); [|apply IH, N].
    apply (fold_left_inv (fun l x => remove_first x l) (fun l' => NoDup l' /\ incl l' l)); [split; [exact N|apply incl_refl]|].
    intros l' x _ (N' & I'). split; [apply remove_first_nodup, N'|]. intros y Y. apply I'. exact (remove_first_in _ _ _ Y).
  Qed.
  Lemma valid_names t d deny n : calm d -> NoDup (valid_status_effects t d deny n)
    /\ forall x, In x (valid_status_effects t d deny n) -> exists a, dget x d = Some a /\ allows (ac_spec a) n.
  Proof.
    intros (N & _). split; [apply filter_nodup_keys, N|]. intros x I. unfold valid_status_effects in I.
    apply in_map_iff in I as ([x' a] & <- & I). apply filter_In in I as (I & V). exists a. split; [apply in_dget; [exact N|exact I]|].
    unfold valid_effect in V. apply andb_true_iff in V as (_ & V). cbn in V. unfold allows. destruct (se_allowlist (ac_spec a)); [|exact Logic.I].
    apply smem_spec, V.
  Qed.

  (** While the names in [done] have been used, at most one of them forces. *)
  Definition used (n : string) (d : dict active) (done : list string) (e : status_effects) : Prop :=
    calm d /\ (ef_crit e <> F_DEFAULT \/ ef_dh e <> F_DEFAULT ->
      exists x a, In x done /\ dget x d = Some a /\ allows (ac_spec a) n /\ forces (ac_spec a)).
  Lemma merge_forced_safe a c : (a <> F_DEFAULT -> c <> F_DEFAULT -> False) ->
    exists r, merge_forced a c = Ok r /\ (r <> F_DEFAULT -> a <> F_DEFAULT \/ c <> F_DEFAULT).
  Proof.
    intros H. unfold merge_forced. destruct a, c; cbn; try (exfalso; apply H; discriminate); eexists; (split; [reflexivity|]); auto.
  Qed.
  Lemma merge_safe e sp : ((ef_crit e <> F_DEFAULT \/ ef_dh e <> F_DEFAULT) -> forces sp -> False) ->
    exists e', merge_effect e sp = Ok e'
      /\ (ef_crit e' <> F_DEFAULT \/ ef_dh e' <> F_DEFAULT -> (ef_crit e <> F_DEFAULT \/ ef_dh e <> F_DEFAULT) \/ forces sp).
  Proof.
    intros H. unfold merge_effect, forces in *.
    destruct (merge_forced_safe (ef_crit e) (se_crit sp)) as (c & -> & Hc); [tauto|]. cbn [bind].
    destruct (merge_forced_safe (ef_dh e) (se_dh sp)) as (d & -> & Hd); [tauto|]. cbn [bind].
    eexists. split; [reflexivity|]. cbn [ef_crit ef_dh]. intros [X|X]; [destruct (Hc X)|destruct (Hd X)]; auto.
  Qed.
  Lemma compile_safe prio t d deny n : calm d -> exists d' e c, compile_effects prio t d deny n = Ok (d', (e, c)) /\ calm d'.
  Proof.
    intros C. unfold compile_effects. destruct (valid_names t d deny n C) as (N & V).
    destruct (delete_lower_sub prio _ N) as (N' & I'). set (names := delete_lower_priority prio _) in *.
    assert (V' : forall x, In x names -> exists a, dget x d = Some a /\ allows (ac_spec a) n) by (intros x I; apply V, I', I).
    clearbody names. clear V I' N. assert (R : forall done l d e c, NoDup (done ++ l) -> used n d done e ->
      (forall x, In x l -> exists a, dget x d = Some a /\ allows (ac_spec a) n) ->
      exists d' e' c', foldM use_effect l (d, e, c) = Ok (d', e', c') /\ calm d').
    { clear - Forces. intros done l. revert done. induction l as [|x l IH]; intros done d e c N (C & F) V; cbn [foldM]; [eauto|].
      destruct (V x (or_introl eq_refl)) as (a & E & A). unfold use_effect at 1. rewrite E. cbn [of_option bind].
      assert (M : (ef_crit e <> F_DEFAULT \/ ef_dh e <> F_DEFAULT) -> forces (ac_spec a) -> False).
      { intros H Fa. destruct (F H) as (y & b & I & Eb & Ab & Fb). destruct (calm_get _ _ _ C E) as (p & (s & Sp & Pp) & <- & Ip).
        destruct (calm_get _ _ _ C Eb) as (r & (s' & Sr & Pr) & <- & Ir).
        pose proof (Forces _ _ _ _ _ _ n Sp Sr Pp Pr Ip Ir Fa Fb A Ab) as X. rewrite X in N.
        apply NoDup_remove in N as (_ & N). apply N. apply in_or_app. auto. }
      destruct (merge_safe e (ac_spec a) M) as (e' & -> & Fe). cbn [bind].
      set (d' := dset x (mkActive (ac_start a) (ac_end a) (ext_subz (ac_uses a) 1) (ac_spec a)) d).
      assert (G : forall y b, dget y d = Some b -> exists b', dget y d' = Some b' /\ ac_spec b' = ac_spec b).
      { intros y b Ey. unfold d'. rewrite dget_dset. destruct (String.eqb_spec y x) as [->|]; [|eauto].
        rewrite E in Ey. injection Ey as <-. eexists. split; [reflexivity|reflexivity]. }
      apply (IH (done ++ [x])%list).
      - rewrite <- app_assoc. exact N.
      - split; [apply calm_dset; [exact C|exact (calm_get _ _ _ C E)]|]. intros H. destruct (Fe H) as [H'|H'].
        + destruct (F H') as (y & b & I & Eb & Ab & Fb). destruct (G _ _ Eb) as (b' & Eb' & Sb). exists y, b'. rewrite Sb.
          split; [apply in_or_app; auto|]. auto.
        + destruct (G _ _ E) as (b' & Eb' & Sb). exists x, b'. rewrite Sb. split; [apply in_or_app; cbn; auto|]. auto.
      - intros y I. destruct (V y (or_intror I)) as (b & Eb & Ab). destruct (G _ _ Eb) as (b' & Eb' & Sb). exists b'. rewrite Sb. auto. }
    destruct (R [] names d no_effects [] N') as (d' & e & c & -> & C'); [|exact V'|].
    - split; [exact C|]. cbn. intuition congruence.
    - cbn [bind]. eauto.
  Qed.
  Lemma compile_buffs_safe st t s : se_calm st -> exists st' e c, compile_buffs st t s = Ok (st', (e, c)) /\ se_calm st'.
  Proof.
    intros C. unfold compile_buffs. destruct (compile_safe (se_priority st) t (se_buffs st) (sk_denylist s) (sk_name s)) as (d & e & c & -> & C'); [apply C|].
    cbn [bind]. do 3 eexists. split; [reflexivity|]. apply se_calm_buffs; assumption.
  Qed.
  Lemma compile_debuffs_safe st t s tg : se_calm st -> exists st' e c, compile_debuffs st t s tg = Ok (st', (e, c)) /\ se_calm st'.
  Proof.
    intros C. unfold compile_debuffs.
    destruct (compile_safe (se_priority st) t (get_debuffs st tg) (sk_denylist s) (sk_name s)) as (d & e & c & -> & C'); [apply calm_debuffs, C|].
    cbn [bind]. do 3 eexists. split; [reflexivity|]. apply se_calm_debuffs; assumption.
  Qed.

  (** ** Job resources *)

  Definition jr_has (tr : jr_tracker) : Prop := forall n, In n resources -> In n (dkeys tr).
  Lemma add_resource_safe tr t p m : jr_has tr -> known p -> NoDup (sm_cond m) ->
    exists tr', add_resource tr t p m = Ok tr' /\ jr_has tr'.
  Proof.
    intros J K N. destruct (known_lookups p m K N) as ((_ & _ & _ & _ & (l & El) & _) & _).
    unfold add_resource. rewrite El. cbn [bind]. apply foldM_total; [exact J|]. intros tr' sp I J'.
    unfold add_one_resource. destruct (proj2 (known_part p K) sp (tspec_declared _ _ _ _ El I)) as [->|R].
    - eexists. split; [reflexivity|]. intros n Hn. unfold dkeys, clear_resources. rewrite map_map. apply J', Hn.
    - destruct (jr_clear_all sp).
      { eexists. split; [reflexivity|]. intros n Hn. unfold dkeys, clear_resources. rewrite map_map. apply J', Hn. }
      apply J', dmem_spec in R. unfold dmem in R. destruct (dget (jr_name sp) tr') as [[cfg es]|]; [|discriminate].
      cbn [of_option bind]. eexists. split; [reflexivity|]. intros n Hn. apply dset_key_in, J', Hn.
  Qed.
  Lemma compile_resources_has tr t n : jr_has tr -> jr_has (fst (compile_job_resources tr t n)).
  Proof.
    intros J x Hx. cbn. unfold dkeys. rewrite map_map. apply J in Hx. unfold dkeys in Hx.
    apply in_map_iff in Hx as ([k [cfg l]] & <- & I). apply in_map_iff. exists (k, (cfg, l)). split; [|exact I].
    destruct (smem n (jrs_allowlist cfg)); reflexivity.
  Qed.

  (** ** One press *)

  Definition tk_safe (tk : trackers) : Prop := se_calm (tk_se tk) /\ jr_has (tk_jr tk).
  Lemma combo_safe ct t p m : known p -> NoDup (sm_cond m) -> exists ct' c, compile_and_update_combo ct t p m = Ok (ct', c).
  Proof.
    intros K N. destruct (known_lookups p m K N) as ((_ & _ & _ & _ & _ & (l & El) & _) & _).
    unfold compile_and_update_combo. rewrite El. cbn [bind]. destruct (fold_left _ l _) as [ct' ok]. eauto.
  Qed.
  Lemma compile_press_safe tk t s m : tk_safe tk -> known s -> NoDup (sm_cond m) ->
    exists tk' m' b d, compile_press tk t s m = Ok (tk', m', b, d) /\ tk_safe tk' /\ NoDup (sm_cond m')
      /\ sm_bonus_percent m' = sm_bonus_percent m.
  Proof.
    intros (C & J) K N. unfold compile_press.
    destruct (compile_buffs_safe _ t s (se_calm_expire _ t C)) as (se1 & b & mb & -> & C1). cbn [bind].
    destruct (compile_debuffs_safe _ t s DEFAULT_TARGET C1) as (se2 & d & md & -> & C2). cbn [bind].
    destruct (compile_job_resources (tk_jr tk) t (sk_name s)) as [jr mj] eqn:Ej.
    pose proof (compile_resources_has _ t (sk_name s) J) as J'. rewrite Ej in J'. cbn [fst] in J'.
    set (m1 := add_to_condition (add_to_condition (add_to_condition m mb) md) mj).
    assert (N1 : NoDup (sm_cond m1)) by (unfold m1; repeat apply add_to_condition_nodup; exact N).
    destruct (combo_safe (tk_combo tk) t s m1 K N1) as (ct & mc & ->). cbn [bind].
    do 4 eexists. split; [reflexivity|]. split; [split; assumption|]. split; [apply add_to_condition_nodup, N1|].
    unfold m1. rewrite !add_condition_bonus. reflexivity.
  Qed.

  (** ** The queue and the DoTs *)

  Definition q_safe (qu : queue) : Prop := Forall (fun e => known (ev_skill e) /\ NoDup (sm_cond (ev_modifier e))) (q_heap qu).
  Lemma q_safe_init : q_safe q_init. Proof. constructor. Qed.
  Lemma q_add_safe qu pr a b s m sn i x y z tg : q_safe qu -> known s -> NoDup (sm_cond m) ->
    exists qu', q_add qu pr a b s m sn i x y z tg = Ok qu' /\ q_safe qu'
      /\ exists e, Permutation (e :: q_heap qu) (q_heap qu') /\ ev_skill e = s /\ ev_modifier e = m.
  Proof.
    intros Q K N. unfold q_add. destruct (match i with None => _ | Some _ => _ end) as [eid nx]. set (ev := mkEvent _ _ _ _ _ _ _ _ _ _ _).
    destruct (push_total event_lt (q_heap qu) ev) as (h & E); [intros; eexists; reflexivity|]. rewrite E. cbn [bind].
    eexists. split; [reflexivity|]. apply heappush_perm in E. split; [|exists ev; auto].
    unfold q_safe. cbn. eapply Permutation_Forall; [exact E|]. constructor; [split; assumption|exact Q].
  Qed.
  Lemma q_add_new_safe qu pr a b s m sn tg : q_safe qu -> known s -> NoDup (sm_cond m) ->
    exists qu', q_add_new qu pr a b s m sn tg = Ok qu' /\ q_safe qu'
      /\ exists e, Permutation (e :: q_heap qu) (q_heap qu') /\ ev_skill e = s /\ ev_modifier e = m.
  Proof. apply q_add_safe. Qed.

  Definition dots_safe (d : dots) : Prop :=
    forall tg l, In (tg, l) d -> forall fu es, In (fu, es) l -> known (fu_skill fu) /\ fu_dot fu <> None.
  Lemma dot_entry_safe fu e l : known (fu_skill fu) -> fu_dot fu <> None ->
    (forall fu es, In (fu, es) l -> known (fu_skill fu) /\ fu_dot fu <> None) ->
    forall fu' es, In (fu', es) (add_dot_entry fu e l) -> known (fu_skill fu') /\ fu_dot fu' <> None.
  Proof.
    intros K D H. induction l as [|[f0 e0] l IH]; cbn; [intros fu' es [[= <- <-]|[]]; auto|].
    destruct (follow_up_eqb fu f0); cbn; intros fu' es [[= <- <-]|I].
    - apply (H f0 e0). left. reflexivity.
    - apply (H fu' es). right. exact I.
    - apply (H f0 e0). left. reflexivity.
    - apply IH in I; [exact I|]. intros f1 e1 I1. apply (H f1 e1). right. exact I1.
  Qed.
  Lemma dot_target_safe fu e d tg : known (fu_skill fu) -> fu_dot fu <> None -> dots_safe d -> dots_safe (add_dot_target fu e d tg).
  Proof.
    intros K D H tg' l I. unfold add_dot_target in I. apply dset_in in I as [[= -> ->]|I]; [|exact (H _ _ I)].
    apply dot_entry_safe; [exact K|exact D|]. destruct (dget tg d) as [l0|] eqn:E; [|intros ? ? []]. apply dget_in in E. exact (H _ _ E).
  Qed.

  Definition sim_safe (sm : sim) : Prop := q_safe (si_queue sm) /\ dots_safe (si_dots sm) /\ tk_safe (si_tk sm).
  (** The damaging events never disappear from the queue while skills are added. *)
  Definition has_hit (qu : queue) : Prop := exists e, In e (q_heap qu) /\ deals_damage (ev_skill e).
  Lemma hit_kept qu qu' e : Permutation (e :: q_heap qu) (q_heap qu') -> has_hit qu -> has_hit qu'.
  Proof. intros P (x & I & D). exists x. split; [|exact D]. apply (Permutation_in _ P). right. exact I. Qed.

  Lemma default_nodup : NoDup (sm_cond default_modifier). Proof. constructor. Qed.
  Lemma follow_up_safe snap app tg sm ifu : tg <> [] -> sim_safe sm -> known (fu_skill (snd ifu)) ->
    exists sm', process_follow_up snap app tg sm ifu = Ok sm' /\ sim_safe sm' /\ (has_hit (si_queue sm) -> has_hit (si_queue sm')).
  Proof.
    intros T (Q & D & C & J) K. destruct ifu as [i fu]. cbn [snd] in K. unfold process_follow_up.
    destruct (fu_dot fu) as [dur|] eqn:Ed.
    - eexists. split; [reflexivity|]. cbn. split; [|auto]. split; [exact Q|]. split; [|split; assumption].
      apply fold_left_inv; [exact D|]. intros d a _ H. apply dot_target_safe; [exact K|congruence|exact H].
    - unfold process_non_dot_follow_up. destruct (if fu_snap_buffs fu || fu_snap_debuffs fu then _ else _) as [st sn].
      assert (exists tg', (if fu_primary_only fu then let* h := of_option IndexError (hd_error tg) in Ok [h] else Ok tg) = Ok tg') as (tg' & ->).
      { destruct (fu_primary_only fu); [|eauto]. destruct tg; [congruence|]. cbn. eauto. }
      cbn [bind].
      destruct (q_add_new_safe (si_queue sm) (time_to_prio st + (i + 1)) st (Some (app + fu_delay fu)) (fu_skill fu) default_modifier sn tg' Q K default_nodup)
        as (qu & -> & Q' & e & P & _). cbn [bind].
      destruct (add_status_safe (tk_se (si_tk sm)) (app + fu_delay fu) (fu_skill fu) default_modifier tg' C K default_nodup) as (se & -> & C'). cbn [bind].
      destruct (add_resource_safe (tk_jr (si_tk sm)) (app + fu_delay fu) (fu_skill fu) default_modifier J K default_nodup) as (jr & -> & J'). cbn [bind].
      eexists. split; [reflexivity|]. cbn. split; [split; [exact Q'|split; [exact D|split; assumption]]|]. exact (hit_kept _ _ _ P).
  Qed.

  (** ** Times *)
  Variables (st : stats).
  Hypothesis Consts : exists c, get_consts (st_version st) (st_level st) = Ok c.

  Lemma speed_total base : exists t, get_time_using_speed_stat base (st_speed st) (st_version st) (st_level st) = Ok t.
  Proof. destruct Consts as (c & E). unfold get_time_using_speed_stat. rewrite E. cbn. eauto. Qed.
  Lemma cast_total ts m b : exists t, get_cast_time st (Some ts) m b = Ok t.
  Proof.
    unfold get_cast_time, scaled_time. destruct (sm_ignore_cast_times m); [eauto|]. cbn [of_option bind].
    destruct (affected_by_speed_stat ts); [destruct (speed_total (base_cast_time ts)) as (t & ->)|]; cbn [bind]; eauto.
  Qed.
  Lemma recast_total ts b d : exists t, get_recast_time st ts b d = Ok t.
  Proof.
    unfold get_recast_time. destruct (affected_by_speed_stat ts); [destruct (speed_total (gcd_base_recast ts)) as (t & ->)|]; cbn [bind]; eauto.
  Qed.
  Lemma times_total ts m t c : exists r, skill_times (Some ts) m t c = Ok r.
  Proof. unfold skill_times. destruct (sm_ignore_application_delay m); cbn; eauto. Qed.

  Lemma process_skill_safe sm t s m b tg : sim_safe sm -> skills s -> NoDup (sm_cond m) -> tg <> [] ->
    exists sm', process_skill st sm t s m b tg = Ok sm' /\ sim_safe sm'
      /\ (has_hit (si_queue sm) \/ deals_damage s -> has_hit (si_queue sm')).
  Proof.
    intros (Q & D & C & J) S N T. pose proof (known_self s S) as K. unfold process_skill.
    destruct (proj1 (Usable s S) m N) as (ts & ->). cbn [bind]. destruct (cast_total ts m b) as (cast & ->). cbn [bind].
    destruct (times_total ts m t cast) as ([sn ap] & ->). cbn [bind].
    destruct (q_add_new_safe (si_queue sm) (time_to_prio sn) sn (Some ap) s m (SFlag true, SFlag true) tg Q K N) as (qu & -> & Q' & e & P & Es & _). cbn [bind].
    destruct (add_status_safe (tk_se (si_tk sm)) ap s m tg C K N) as (se & -> & C'). cbn [bind].
    destruct (add_resource_safe (tk_jr (si_tk sm)) sn s m J K N) as (jr & -> & J'). cbn [bind].
    destruct (proj2 (known_lookups s m K N)) as (fus & Ef). rewrite Ef. cbn [bind].
    edestruct (foldM_total (process_follow_up sn ap tg)
      (fun sm' => sim_safe sm' /\ (has_hit (si_queue sm) \/ deals_damage s -> has_hit (si_queue sm'))) (enumerate fus)) as (sm' & -> & S').
    3:{ exists sm'. split; [reflexivity|exact S']. }
    - split; [split; [exact Q'|split; [exact D|split; assumption]]|]. cbn. intros [H|H]; [exact (hit_kept _ _ _ P H)|].
      exists e. split; [apply (Permutation_in _ P); left; reflexivity|]. rewrite Es. exact H.
    - intros sm1 [i fu] I (S1 & H1). assert (Kf : known (fu_skill fu)).
      { apply (known_fu s fu K). apply (tspec_declared _ _ _ _ Ef). unfold enumerate in I. apply (in_map snd) in I. rewrite enum_from_snd in I. exact I. }
      destruct (follow_up_safe sn ap tg sm1 (i, fu) T S1 Kf) as (sm2 & E2 & S2 & H2). exists sm2. split; [exact E2|]. split; [exact S2|]. auto.
  Qed.

  Lemma seq_safe ss x : sim_safe (pa_sim (ss_pass ss)) -> skills (sq_skill x) -> usable_modifier (sq_skill x) (sq_modifier x) -> sq_targets x <> [] ->
    exists ss', process_seq st ss x = Ok ss' /\ sim_safe (pa_sim (ss_pass ss'))
      /\ pa_stamps (ss_pass ss') <> []
      /\ (has_hit (si_queue (pa_sim (ss_pass ss))) \/ deals_damage (sq_skill x) -> has_hit (si_queue (pa_sim (ss_pass ss')))).
  Proof.
    intros (Q & D & TK) S (N & Po) T. unfold process_seq. set (t := press_time _ _ _).
    destruct (compile_press_safe (si_tk (pa_sim (ss_pass ss))) t (sq_skill x) (sq_modifier x) TK (known_self _ S) N) as (tk & m1 & b & d & -> & TK' & N1 & B1).
    cbn [bind]. destruct (Po m1 N1 B1) as (m2 & E2). rewrite E2. cbn [bind]. pose proof (positional_nodup _ _ _ N1 E2) as N2.
    destruct (proj1 (Usable _ S) m2 N2) as (ts & Et). rewrite Et. cbn [bind]. destruct (sq_targets x) as [|tg0 tgs] eqn:ET; [congruence|].
    cbn [hd_error of_option bind].
    destruct (process_skill_safe (mkSim (si_queue (pa_sim (ss_pass ss))) (si_dots (pa_sim (ss_pass ss))) tk) t (sq_skill x) m2 b (tg0 :: tgs))
      as (sm' & -> & S' & H'); [split; [exact Q|split; [exact D|exact TK']]|exact S|exact N2|discriminate|]. cbn [bind].
    assert (NE : (pa_stamps (ss_pass ss) ++ [(t, tg0)])%list <> []) by (destruct (pa_stamps (ss_pass ss)); discriminate).
    destruct (sk_is_GCD (sq_skill x)).
    - destruct (recast_total ts b d) as (r & ->). cbn [bind]. destruct (cast_total ts m2 b) as (c & ->). cbn [bind].
      eexists. split; [reflexivity|]. cbn. auto.
    - eexists. split; [reflexivity|]. cbn. auto.
  Qed.
  Lemma timed_safe p x : sim_safe (pa_sim p) -> skills (tm_skill x) -> usable_modifier (tm_skill x) (tm_modifier x) -> tm_targets x <> [] ->
    exists p', process_timed st p x = Ok p' /\ sim_safe (pa_sim p')
      /\ pa_stamps p' <> []
      /\ (has_hit (si_queue (pa_sim p)) \/ deals_damage (tm_skill x) -> has_hit (si_queue (pa_sim p'))).
  Proof.
    intros (Q & D & TK) S (N & Po) T. unfold process_timed.
    destruct (compile_press_safe (si_tk (pa_sim p)) (tm_time x) (tm_skill x) (tm_modifier x) TK (known_self _ S) N) as (tk & m1 & b & d & -> & TK' & N1 & B1).
    cbn [bind]. destruct (Po m1 N1 B1) as (m2 & E2). rewrite E2. cbn [bind]. pose proof (positional_nodup _ _ _ N1 E2) as N2.
    destruct (tm_targets x) as [|tg0 tgs] eqn:ET; [congruence|]. cbn [hd_error of_option bind].
    destruct (process_skill_safe (mkSim (si_queue (pa_sim p)) (si_dots (pa_sim p)) tk) (tm_time x) (tm_skill x) m2 b (tg0 :: tgs))
      as (sm' & -> & S' & H'); [split; [exact Q|split; [exact D|exact TK']]|exact S|exact N2|discriminate|]. cbn [bind].
    eexists. split; [reflexivity|]. cbn. split; [exact S'|]. split; [destruct (pa_stamps p); discriminate|exact H'].
  Qed.

  (** ** Ticks, shift and downtime *)

  Definition grows (qu qu' : queue) : Prop := has_hit qu -> has_hit qu'.
  Lemma tick_safe fu target last snap pm qn t : q_safe (fst qn) -> known (fu_skill fu) ->
    exists qn', add_tick fu target last snap pm qn t = Ok qn' /\ q_safe (fst qn') /\ grows (fst qn) (fst qn').
  Proof.
    intros Q K. destruct qn as [qu n]. cbn [fst] in Q. unfold add_tick. destruct (is_trailing last t).
    { eexists. split; [reflexivity|]. split; [exact Q|]. intro; assumption. }
    edestruct (q_add_new_safe qu) as (qu' & -> & Q' & e & P & _); [exact Q|exact K|exact default_nodup|]. cbn [bind].
    eexists. split; [reflexivity|]. split; [exact Q'|]. exact (hit_kept _ _ _ P).
  Qed.
  Lemma dot_safe server target last qu fu es : q_safe qu -> known (fu_skill fu) -> fu_dot fu <> None ->
    exists qu', add_dot server target last qu (fu, es) = Ok qu' /\ q_safe qu' /\ grows qu qu'.
  Proof.
    intros Q K D. unfold add_dot. destruct (fu_dot fu) as [dur|]; [|congruence]. cbn [of_option bind].
    destruct (foldM_total (add_dot_window server fu target last) (fun qn => q_safe (fst qn) /\ grows qu (fst qn))
      (consolidate (base_dot_timings dur es)) (qu, 0)) as ([qu' n] & -> & H).
    - split; [exact Q|]. intro; assumption.
    - intros qn [[[st0 e0] sn0] pm0] _ (Q1 & G1). unfold add_dot_window. apply foldM_total; [auto|]. intros qn1 t _ (Q2 & G2).
      destruct (tick_safe fu target last sn0 pm0 qn1 t Q2 K) as (qn' & E & Q3 & G3). exists qn'. split; [exact E|]. split; [exact Q3|].
      intros H. apply G3, G2, H.
    - cbn [bind]. exists qu'. split; [reflexivity|exact H].
  Qed.
  Lemma all_dots_safe server d last qu : q_safe qu -> dots_safe d ->
    exists qu', process_all_dots server d last qu = Ok qu' /\ q_safe qu' /\ grows qu qu'.
  Proof.
    intros Q D. unfold process_all_dots. apply (foldM_total _ (fun qu' => q_safe qu' /\ grows qu qu')); [split; [exact Q|intro; assumption]|].
    intros q1 [tg l] I (Q1 & G1). cbn [fst snd]. apply (foldM_total _ (fun qu' => q_safe qu' /\ grows qu qu')); [auto|].
    intros q2 [fu es] I2 (Q2 & G2). destruct (D _ _ I _ _ I2) as (K & N).
    destruct (dot_safe server tg last q2 fu es Q2 K N) as (q3 & E & Q3 & G3). exists q3. split; [exact E|]. split; [exact Q3|].
    intros H. apply G3, G2, H.
  Qed.

  Lemma q_drain_safe qu : q_safe qu -> exists evs, q_drain qu = Ok evs
    /\ Forall (fun e => known (ev_skill e) /\ NoDup (sm_cond (ev_modifier e))) evs.
  Proof.
    intros Q. unfold q_drain. destruct (drain_any event_lt (List.length (q_heap qu)) (q_heap qu)) as (l & -> & P); [|lia|].
    - intros a b _ _. eexists. reflexivity.
    - exists l. split; [reflexivity|]. eapply Permutation_Forall; [exact P|exact Q].
  Qed.
  Lemma first_damage_safe qu : q_safe qu -> exists r, get_first_damage_time qu = Ok r /\ (has_hit qu -> r <> None).
  Proof.
    intros Q. unfold get_first_damage_time, q_safe, has_hit in *.
    assert (G : forall acc, exists r, foldM first_damage_step (q_heap qu) acc = Ok r
      /\ (acc <> None \/ (exists e, In e (q_heap qu) /\ deals_damage (ev_skill e)) -> r <> None)).
    { induction Q as [|e l (K & N) Q IH]; intros acc; cbn [foldM].
      - eexists. split; [reflexivity|]. intros [H|(x & [] & _)]. exact H.
      - destruct (known_lookups _ _ K N) as (((d & Ed) & _) & _). unfold first_damage_step at 1. rewrite Ed. cbn [bind].
        destruct (IH (match d with None => acc | Some _ => Some (match acc with None => ev_time e | Some t => Z.min (ev_time e) t end) end)) as (r & Er & Hr).
        exists r. split; [exact Er|]. intros H. apply Hr. destruct d as [d|]; [left; discriminate|].
        destruct H as [H|(x & [<-|I] & D)]; [left; exact H| |right; eauto].
        destruct (D _ N) as (d' & Ed'). congruence. }
    destruct (G None) as (r & E & H). exists r. split; [exact E|]. intros X. apply H. right. exact X.
  Qed.
  Lemma shift_safe qu pr : q_safe qu -> exists qu' pr', shift_timelines qu pr = Ok (qu', pr') /\ q_safe qu'.
  Proof.
    intros Q. unfold shift_timelines. destruct (first_damage_safe qu Q) as ([d|] & -> & _); cbn [bind]; [|eauto].
    destruct (q_drain_safe qu Q) as (evs & -> & F). cbn [bind].
    destruct (foldM_total (shift_event d) q_safe evs q_init) as (qu' & -> & Q'); [apply q_safe_init| |cbn [bind]; eauto].
    intros q1 e I Q1. rewrite Forall_forall in F. destruct (F e I) as (K & N). unfold shift_event.
    edestruct (q_add_new_safe q1) as (q2 & -> & Q2 & _); [exact Q1|exact K|exact N|]. eauto.
  Qed.
  Lemma keep_safe w e : known (ev_skill e) -> NoDup (sm_cond (ev_modifier e)) -> forall l, exists r, filterM (keep_target w e) l = Ok r.
  Proof.
    intros K N. destruct (known_lookups _ _ K N) as (((d & Ed) & _) & _). induction l as [|a l (r & Er)]; cbn [filterM]; [eauto|].
    unfold keep_target at 1. rewrite Ed, Er. cbn [bind]. eauto.
  Qed.
  Lemma downtime_safe w qu : q_safe qu -> exists qu', remove_damage_during_downtime w qu = Ok qu' /\ q_safe qu'.
  Proof.
    intros Q. unfold remove_damage_during_downtime. destruct (q_drain_safe qu Q) as (evs & -> & F). cbn [bind].
    apply foldM_total; [apply q_safe_init|]. intros q1 e I Q1. rewrite Forall_forall in F. destruct (F e I) as (K & N).
    unfold downtime_event. destruct (keep_safe w e K N (ev_targets e)) as (v & ->). cbn [bind].
    destruct v; [eauto|]. edestruct (q_add_new_safe q1) as (q2 & -> & Q2 & _); [exact Q1|exact K|exact N|]. eauto.
  Qed.

  (** ** Autos *)

  Lemma timeline_safe qu : q_safe qu -> exists l, speed_timeline qu = Ok l /\ Forall (fun x => known (snd x)) l.
  Proof.
    intros Q. unfold speed_timeline. match goal with |- context [mapM ?g _] => set (f := g) end.
    assert (F : Forall (fun e => known (ev_skill e) /\ NoDup (sm_cond (ev_modifier e))) (get_q qu)).
    { unfold get_q. eapply Permutation_Forall; [symmetry; apply sort_perm|exact Q]. }
    assert (G : exists l, mapM f (get_q qu) = Ok l /\ Forall (Forall (fun x => known (snd x))) l).
    { induction F as [|e l (K & N) F (r & Er & Hr)]; cbn [mapM]; [eexists; split; [reflexivity|constructor]|].
      destruct (known_lookups _ _ K N) as ((_ & _ & (b & Eb) & (d & Ed) & _) & _). unfold f at 1. rewrite Eb, Ed, Er. cbn [bind].
      eexists. split; [reflexivity|]. constructor; [|exact Hr]. destruct (has_speed b || has_speed d); repeat constructor. exact K. }
    destruct G as (l & -> & H). cbn [bind]. eexists. split; [reflexivity|].
    eapply Permutation_Forall; [symmetry; apply sort_by_perm|].
    clear -H. induction H; cbn; [constructor|]. apply Forall_app. auto.
  Qed.
  Lemma applicable_safe b tl t au targets settings :
    get_all_resource_settings (b_library b) (st_job (b_stats b)) = Ok settings -> (forall n, In n resources -> In n (map fst settings)) ->
    Forall (fun x => known (snd x)) tl ->
    exists bu de, applicable_effects b tl t au targets = Ok (bu, de).
  Proof.
    intros R Rs F. unfold applicable_effects. rewrite R. cbn [bind]. set (evs := filter _ tl).
    assert (Fe : Forall (fun x => known (snd x)) evs).
    { apply Forall_forall. intros x Hx. apply filter_In in Hx as (Hx & _). rewrite Forall_forall in F. apply F, Hx. }
    match goal with |- context [foldM ?f evs ?s] => destruct (foldM_total f (fun st => se_calm (fst st) /\ jr_has (snd st)) evs s) as ([se jr] & E & C & J) end.
    - split; [apply se_calm_init|]. intros n Hn. cbn [snd]. unfold dkeys, jr_init. rewrite map_map. apply Rs, Hn.
    - intros [se jr] [t0 s0] I (C & J). cbn [fst snd] in *. rewrite Forall_forall in Fe. pose proof (Fe _ I) as K. cbn [snd] in K.
      destruct (add_status_safe (expire_status_effects t0 se) t0 s0 default_modifier targets (se_calm_expire _ _ C) K default_nodup) as (se' & -> & C'). cbn [bind].
      destruct (add_resource_safe jr t0 s0 default_modifier J K default_nodup) as (jr' & -> & J'). cbn [bind]. eauto.
    - rewrite E. cbn [bind fst] in *. destruct (compile_buffs_safe _ t (snd (last evs (0, au))) (se_calm_expire _ t C)) as (se1 & bu & mb & -> & C1). cbn [bind].
      destruct (compile_debuffs_safe _ t (snd (last evs (0, au))) DEFAULT_TARGET C1) as (se2 & de & md & -> & _). cbn [bind]. eauto.
  Qed.

  Lemma channeling_safe ch t s m : known s -> NoDup (sm_cond m) -> ch_final ch = false ->
    exists ch', process_channeling ch t s m = Ok ch' /\ ch_final ch' = false.
  Proof.
    intros K N F. unfold process_channeling. rewrite F. destruct (contains WAIT_PREFIX (sk_name s)); [eauto|].
    destruct (known_lookups s m K N) as ((_ & _ & _ & _ & _ & _ & (c & ->)) & _). cbn [bind].
    destruct c as [c|], (ch_current ch) as [[[s0 cur] us]|] eqn:Ec; unfold start_channeling; cbn [end_channeling ch_current ch_final]; rewrite ?Ec; eauto.
    destruct (smem (sk_name s) (ch_allowlist cur)); [|eauto]. destruct (ext_pos (ext_subz us 1)); eauto.
  Qed.
  Lemma no_auto_step_safe b x tk ch casts : b_stats b = st -> tk_safe tk -> ch_final ch = false ->
    skills (tm_skill x) -> NoDup (sm_cond (tm_modifier x)) ->
    exists tk' ch' casts', no_auto_step b (tk, ch, casts) x = Ok (tk', ch', casts') /\ tk_safe tk' /\ ch_final ch' = false.
  Proof.
    intros Eb T F S N. pose proof (known_self _ S) as K. unfold no_auto_step. rewrite Eb.
    destruct (channeling_safe ch (tm_time x) _ _ K N F) as (ch' & -> & F'). cbn [bind].
    destruct (compile_press_safe tk (tm_time x) _ _ T K N) as (tk1 & m1 & bu & de & -> & (C1 & J1) & N1 & _). cbn [bind].
    destruct (proj1 (Usable _ S) m1 N1) as (ts & ->). cbn [bind]. destruct (cast_total ts m1 bu) as (c & ->). cbn [bind].
    destruct (add_status_safe (tk_se tk1) (tm_time x) _ m1 [b_default_target b] C1 K N1) as (se & -> & C2). cbn [bind].
    destruct (add_resource_safe (tk_jr tk1) (tm_time x) _ m1 J1 K N1) as (jr & -> & J2). cbn [bind].
    do 3 eexists. split; [reflexivity|]. split; [split; assumption|exact F'].
  Qed.
End Safe.

(** ** Comparing timed presses *)

Lemma timed_lt_total b : comparable b -> total_on timed_lt (b_timed b).
Proof.
  intros C x y Hx Hy. unfold timed_lt. destruct (negb (tm_time x =? tm_time y)); [eauto|].
  destruct (String.eqb_spec (sk_name (tm_skill x)) (sk_name (tm_skill y))) as [E|E]; cbn [negb]; [|eauto].
  rewrite (C x y Hx Hy E). cbn [negb]. destruct (negb (modifier_eqb _ _)); [eauto|]. destruct (negb (String.eqb _ _)); eauto.
Qed.

(** ** A run *)

Section Run.
  Variables (b : builder) (settings : dict jr_settings) (skills : skill -> Prop).
  Let resources := map fst settings.
  Let st := b_stats b.
  Hypothesis Settings : get_all_resource_settings (b_library b) (st_job st) = Ok settings.
  Hypothesis Breakers : exists br, get_all_combo_breakers (b_library b) (st_job st) = Ok br.
  Hypothesis Consts : exists c, get_consts (st_version st) (st_level st) = Ok c.
  Hypothesis Usable : forall s, skills s -> usable resources s.
  Hypothesis Forces : never_both_force skills.
  Hypothesis Pressed : forall s, In s (skills_of b) -> skills s.
  Hypothesis SeqMods : forall x, In x (b_sequence b) -> usable_modifier (sq_skill x) (sq_modifier x) /\ sq_targets x <> [].
  Hypothesis TimedMods : forall x, In x (b_timed b) -> usable_modifier (tm_skill x) (tm_modifier x) /\ tm_targets x <> [].
  Hypothesis Comparable : comparable b.

  Lemma seq_pressed x : In x (b_sequence b) -> skills (sq_skill x).
  Proof. intros I. apply Pressed, in_or_app. left. apply in_map, I. Qed.
  Lemma timed_pressed x : In x (b_timed b) -> skills (tm_skill x).
  Proof. intros I. apply Pressed, in_or_app. right. apply in_map, I. Qed.

  Lemma trackers_safe : exists tk, new_trackers (b_library b) (st_job st) (b_priority b) = Ok tk /\ tk_safe skills resources tk.
  Proof.
    unfold new_trackers. rewrite Settings. destruct Breakers as (br & ->). cbn [bind]. eexists. split; [reflexivity|].
    split; [apply se_calm_init|]. intros n Hn. cbn. unfold dkeys, jr_init. rewrite map_map. exact Hn.
  Qed.

  Definition ready (p : pass) : Prop :=
    q_safe skills (si_queue (pa_sim p)) /\ dots_safe skills (si_dots (pa_sim p)).

  Lemma q_sequence_safe qu d pr stamps : q_safe skills qu -> dots_safe skills d ->
    exists p, process_q_sequence b qu d pr stamps = Ok p /\ ready p
      /\ (stamps <> [] \/ b_sequence b <> [] -> pa_stamps p <> [])
      /\ (has_hit qu \/ (exists x, In x (b_sequence b) /\ deals_damage (sq_skill x)) -> has_hit (si_queue (pa_sim p))).
  Proof.
    intros Q D. unfold process_q_sequence. destruct trackers_safe as (tk & Etk & T). fold st. rewrite Etk. cbn [bind].
    set (s0 := mkSeqState _ _ _).
    assert (G : forall l ss, incl l (b_sequence b) -> sim_safe skills resources (pa_sim (ss_pass ss)) ->
      exists ss', foldM (process_seq st) l ss = Ok ss' /\ sim_safe skills resources (pa_sim (ss_pass ss'))
        /\ (pa_stamps (ss_pass ss) <> [] \/ l <> [] -> pa_stamps (ss_pass ss') <> [])
        /\ (has_hit (si_queue (pa_sim (ss_pass ss))) \/ (exists x, In x l /\ deals_damage (sq_skill x)) -> has_hit (si_queue (pa_sim (ss_pass ss'))))).
    { induction l as [|x l IH]; intros ss I S; cbn [foldM].
      - exists ss. split; [reflexivity|]. split; [exact S|]. split; [intros [H|H]; congruence|]. intros [H|(x & [] & _)]. exact H.
      - assert (Ix : In x (b_sequence b)) by (apply I; left; reflexivity). destruct (SeqMods x Ix) as (M & T0).
        destruct (seq_safe skills resources Usable Forces st Consts ss x S (seq_pressed x Ix) M T0) as (ss1 & E1 & S1 & St1 & H1). rewrite E1. cbn [bind].
        destruct (IH ss1) as (ss2 & E2 & S2 & St2 & H2); [intros y Hy; apply I; right; exact Hy|exact S1|].
        exists ss2. split; [exact E2|]. split; [exact S2|]. split; [auto|]. intros [H|(y & [<-|Hy] & Dy)]; apply H2; eauto. }
    destruct (G (b_sequence b) s0) as (ss & E & (Q' & D' & _) & H1 & H2); [apply incl_refl|split; [exact Q|split; [exact D|exact T]]|].
    rewrite E. cbn [bind]. exists (ss_pass ss). split; [reflexivity|]. split; [split; assumption|]. split; [exact H1|exact H2].
  Qed.
  Lemma q_timed_safe qu d pr stamps : q_safe skills qu -> dots_safe skills d ->
    exists p, process_q_timed b qu d pr stamps = Ok p /\ ready p
      /\ (stamps <> [] \/ b_timed b <> [] -> pa_stamps p <> [])
      /\ (has_hit qu \/ (exists x, In x (b_timed b) /\ deals_damage (tm_skill x)) -> has_hit (si_queue (pa_sim p))).
  Proof.
    intros Q D. unfold process_q_timed. destruct trackers_safe as (tk & Etk & T). fold st. rewrite Etk. cbn [bind].
    unfold timed_order. pose proof (sort_by_perm tm_time (b_timed b)) as SP.
    destruct (drain_any timed_lt (List.length (b_timed b)) (sort_by tm_time (b_timed b))) as (order & -> & P).
    { intros x y Hx Hy. apply (timed_lt_total b Comparable); apply (Permutation_in _ SP); assumption. }
    { rewrite (Permutation_length SP). lia. }
    cbn [bind]. assert (PO : Permutation (b_timed b) order) by (rewrite <- P; symmetry; exact SP).
    assert (G : forall l p, incl l (b_timed b) -> sim_safe skills resources (pa_sim p) ->
      exists p', foldM (process_timed st) l p = Ok p' /\ sim_safe skills resources (pa_sim p')
        /\ (pa_stamps p <> [] \/ l <> [] -> pa_stamps p' <> [])
        /\ (has_hit (si_queue (pa_sim p)) \/ (exists x, In x l /\ deals_damage (tm_skill x)) -> has_hit (si_queue (pa_sim p')))).
    { induction l as [|x l IH]; intros p I S; cbn [foldM].
      - exists p. split; [reflexivity|]. split; [exact S|]. split; [intros [H|H]; congruence|]. intros [H|(x & [] & _)]. exact H.
      - assert (Ix : In x (b_timed b)) by (apply I; left; reflexivity). destruct (TimedMods x Ix) as (M & T0).
        destruct (timed_safe skills resources Usable Forces st Consts p x S (timed_pressed x Ix) M T0) as (p1 & E1 & S1 & St1 & H1). rewrite E1. cbn [bind].
        destruct (IH p1) as (p2 & E2 & S2 & St2 & H2); [intros y Hy; apply I; right; exact Hy|exact S1|].
        exists p2. split; [exact E2|]. split; [exact S2|]. split; [auto|]. intros [H|(y & [<-|Hy] & Dy)]; apply H2; eauto. }
    destruct (G order (mkPass (mkSim qu d tk) pr stamps)) as (p & E & (Q' & D' & _) & H1 & H2);
      [intros x Hx; apply (Permutation_in _ (Permutation_sym PO) Hx)|split; [exact Q|split; [exact D|exact T]]|].
    exists p. split; [exact E|]. split; [split; assumption|]. split.
    - intros [H|H]; apply H1; [left; exact H|right]. intros ->. apply H. apply Permutation_nil. symmetry. exact PO.
    - intros [H|(x & I & Dx)]; apply H2; [left; exact H|right]. exists x. split; [apply (Permutation_in _ PO I)|exact Dx].
  Qed.

  Lemma no_auto_periods_safe w : exists ps, get_no_auto_periods (with_windows b w) = Ok ps.
  Proof.
    unfold get_no_auto_periods. cbn [with_windows b_library b_stats b_priority b_timed].
    destruct trackers_safe as (tk & Etk & T). fold st. rewrite Etk. cbn [bind].
    destruct (drain_any timed_lt (List.length (b_timed b)) (b_timed b) (timed_lt_total b Comparable) (le_n _)) as (order & -> & P). cbn [bind].
    destruct (foldM_total (no_auto_step (with_windows b w)) (fun s => tk_safe skills resources (fst (fst s)) /\ ch_final (snd (fst s)) = false)
      order (tk, ch_init, [])) as ([[tk' ch] casts] & -> & _ & F).
    - split; [exact T|reflexivity].
    - intros [[tk1 ch1] c1] x I (T1 & F1). cbn [fst snd] in *. assert (Ix : In x (b_timed b)) by exact (Permutation_in _ (Permutation_sym P) I).
      destruct (no_auto_step_safe skills resources Usable Forces st Consts (with_windows b w) x tk1 ch1 c1) as (tk2 & ch2 & c2 & E2 & T2 & F2);
        [reflexivity|exact T1|exact F1|apply timed_pressed, Ix|apply (TimedMods x Ix)|]. exists (tk2, ch2, c2). auto.
    - cbn [fst snd bind] in *. unfold ch_finalize. rewrite F. cbn [bind]. unfold get_channeling_windows. cbn [ch_final bind]. eauto.
  Qed.

  Lemma advance_le l : forall ind t, (advance l ind t <= ind + List.length l)%nat.
  Proof. induction l as [|x l IH]; intros ind t; cbn; [lia|]. destruct (fst x <=? t); [|lia]. specialize (IH (S ind) t). lia. Qed.
  Lemma anon_parts qu : q_safe skills qu ->
    forall e, In e (map anon (q_heap qu)) -> NoDup (sm_cond (ev_modifier e)) /\ exists s, skills s /\ part_of (ev_skill e) s.
  Proof.
    intros Q e I. apply in_map_iff in I as (e0 & <- & I). unfold q_safe in Q. rewrite Forall_forall in Q. destruct (Q _ I) as (K & N).
    split; [exact N|exact K].
  Qed.

  Section Autos.
    Variables (w : windows) (au : skill).
    Hypothesis Auto : skills au.
    Hypothesis Ends : forall target r, In r (windows_for w target) -> exists z, (w_end r == inject_Z z)%Q.
    Hypothesis Slow : forall evs t buffs debuffs,
      (forall e, In e evs -> NoDup (sm_cond (ev_modifier e)) /\ exists s, skills s /\ part_of (ev_skill e) s) ->
      auto_effects b evs t au buffs debuffs -> 10 <= hasted_delay st buffs debuffs.

    Lemma as_int_total x z : (x == inject_Z z)%Q -> exists r, as_int x = Ok r.
    Proof.
      intros E. unfold as_int. assert (X : Qeq_bool (ffloor x) x = true).
      { apply Qeq_bool_iff. unfold ffloor. rewrite (Qfloor_comp _ _ E), Qfloor_Z. symmetry. exact E. }
      rewrite X. eauto.
    Qed.
    Lemma forward_total target t : exists r, as_int (forward_downtime (windows_for w target) t) = Ok r.
    Proof.
      pose proof (Ends target) as E. induction (windows_for w target) as [|r l IH]; cbn [forward_downtime].
      - apply (as_int_total _ t). reflexivity.
      - destruct (in_window r (q t) && window_hits r DC_AUTO).
        + destruct (E r (or_introl eq_refl)) as (z & Ez). exact (as_int_total _ _ Ez).
        + apply IH. intros r' I. apply E. right. exact I.
    Qed.

    Lemma auto_loop_safe delay last stamps : stamps <> [] -> forall fuel qu snapshot ind,
      q_safe skills qu -> (ind < List.length stamps)%nat -> last - (snapshot + delay) < 10 * Z.of_nat fuel ->
      exists qu', auto_loop fuel (with_windows b w) stamps au delay (qtrunc (fmul (q 1000) (st_weapon_delay st))) last qu snapshot ind = Ok qu'
        /\ q_safe skills qu'.
    Proof.
      intros NE. induction fuel as [|fuel IH]; intros qu snapshot ind Q Li F; cbn [auto_loop].
      - destruct (Z.ltb_spec (snapshot + delay) last) as [L|L]; [lia|]. cbn [negb]. eauto.
      - destruct (Z.ltb_spec (snapshot + delay) last) as [L|L]; cbn [negb]; [|eauto].
        set (ind' := Nat.pred _). assert (Li' : (ind' < List.length stamps)%nat).
        { unfold ind'. pose proof (advance_le (skipn ind stamps) ind snapshot) as A. rewrite skipn_length in A.
          destruct (advance (skipn ind stamps) ind snapshot); cbn; lia. }
        destruct (nth_error stamps ind') as [[t0 target]|] eqn:En; [|apply nth_error_None in En; lia]. cbn [of_option bind].
        edestruct (q_add_new_safe skills qu) as (q1 & -> & Q1 & _); [exact Q|apply known_self, Auto|exact default_nodup|]. cbn [bind].
        destruct (timeline_safe skills resources Usable q1 Q1) as (tl & Etl & Ft). rewrite Etl. cbn [bind].
        destruct (applicable_safe skills resources Usable Forces (with_windows b w) tl snapshot au [b_default_target (with_windows b w)] settings)
          as (bu & de & Ea); [exact Settings|auto|exact Ft|]. rewrite Ea. cbn [bind].
        assert (Ef : auto_effects b (map anon (q_heap q1)) snapshot au bu de).
        { eapply applicable_effects_spec; [exact Etl|reflexivity|exact Ea]. }
        pose proof (Slow _ _ _ _ (anon_parts q1 Q1) Ef) as G.
        destruct (no_auto_periods_safe w) as (ps & Ep). rewrite Ep. cbn [bind].
        change (truncate_to_digit2 _) with (hasted_delay st bu de). set (g := hasted_delay st bu de) in *.
        destruct (next_auto_time (windows_for (b_windows (with_windows b w)) target) ps (snapshot + g)) as [nxt|e] eqn:Ex.
        2:{ exfalso. unfold next_auto_time in Ex. destruct (forward_total target (snapshot + g)) as (r & Er). cbn [with_windows b_windows] in Ex. rewrite Er in Ex. cbn [bind] in Ex.
            destruct (filter _ ps); discriminate Ex. }
        cbn [bind]. destruct nxt as [t'|]; [|eauto]. apply IH; [exact Q1|exact Li'|].
        destruct (next_auto_time_spec _ _ _ _ Ex) as (t1 & N1 & N2). apply after_downtime_le in N1. apply after_periods_le in N2. lia.
    Qed.

    Lemma shorten_ne l : l <> [] -> exists l', shorten_sequence l = Ok l' /\ l' <> [].
    Proof. destruct l; [congruence|]. cbn. intros _. eexists. split; [reflexivity|discriminate]. Qed.
    Lemma last_event_some qu : has_hit qu -> exists t, get_last_event_time qu = Some t.
    Proof.
      intros (e & I & _). unfold get_last_event_time. destruct (q_heap qu) as [|e0 l]; [destruct I|]. cbn [fold_left]. clear.
      generalize (ev_time e0). induction l as [|e l IH]; intros t; cbn [fold_left]; eauto.
    Qed.

    Lemma add_autos_safe ts stamps last0 qu : auto_skill b au -> sk_timing au = COne ts -> stamps <> [] ->
      q_safe skills qu -> has_hit qu ->
      exists qu', add_autos (with_windows b w) stamps last0 qu = Ok qu' /\ q_safe skills qu'.
    Proof.
      intros A Et NE Q H. unfold add_autos. destruct (shorten_ne (sort_by fst stamps)) as (short & -> & NE').
      { intros X. apply NE. apply Permutation_nil. rewrite <- X. apply sort_by_perm. }
      cbn [bind with_windows b_stats b_library]. assert (Ea : auto_skill_of (b_library b) (st_job (b_stats b)) = Ok au).
      { unfold auto_skill_of. destruct A as [(-> & A)|(-> & A)]; exact A. }
      rewrite Ea. cbn [bind]. destruct (first_damage_safe skills resources Usable qu Q) as (first & -> & Hf). cbn [bind].
      specialize (Hf H). destruct first as [first|]; [|congruence]. cbn [of_option bind].
      unfold auto_delay_of. rewrite Et. cbn [bind]. destruct (last_event_some qu H) as (lt & El).
      assert (exists last, match last0 with Some t => Some t | None => get_last_event_time qu end = Some last) as (last & ->).
      { destruct last0; eauto. }
      cbn [of_option bind]. apply auto_loop_safe; [exact NE'|exact Q|destruct short; [congruence|cbn; lia]|apply auto_fuel_bound].
    Qed.
  End Autos.

  Lemma run_safe : dots_safe skills (b_dots b) ->
    (b_autos b = true -> exists au ts, auto_skill b au /\ skills au /\ sk_timing au = COne ts
       /\ (exists s, In s (skills_of b) /\ deals_damage s)
       /\ (forall target r, In r (windows_of b target) -> exists z, (w_end r == inject_Z z)%Q)
       /\ (forall evs t buffs debuffs,
             (forall e, In e evs -> NoDup (sm_cond (ev_modifier e)) /\ exists s, skills s /\ part_of (ev_skill e) s) ->
             auto_effects b evs t au buffs debuffs -> 10 <= hasted_delay st buffs debuffs)) ->
    exists b', get_skill_timing b = Ok b' /\ dots_safe skills (b_dots b').
  Proof.
    intros D A. unfold get_skill_timing. set (w := process_downtime_windows b).
    destruct (q_sequence_safe q_init (b_dots b) [] (b_stamps b) (q_safe_init _) D) as (p1 & E1 & (Q1 & D1) & S1 & H1).
    change (process_q_sequence (with_windows b w)) with (process_q_sequence b). change (b_dots (with_windows b w)) with (b_dots b).
    change (b_stamps (with_windows b w)) with (b_stamps b). rewrite E1. cbn [bind].
    destruct (q_timed_safe (si_queue (pa_sim p1)) (si_dots (pa_sim p1)) (pa_press p1) (pa_stamps p1) Q1 D1) as (p2 & E2 & (Q2 & D2) & S2 & H2).
    change (process_q_timed (with_windows b w)) with (process_q_timed b). rewrite E2. cbn [bind].
    match goal with |- context [process_all_dots ?s ?d ?l ?q] => destruct (all_dots_safe skills s d l q Q2 D2) as (q3 & E3 & Q3 & G3) end.
    rewrite E3. cbn [bind].
    match goal with |- context [bind ?r _] => assert (exists q4, r = Ok q4 /\ q_safe skills q4) as (q4 & -> & Q4) end.
    { cbn [with_windows b_autos]. destruct (b_autos b); [|eauto]. destruct (A eq_refl) as (au & ts & Au & Ks & Et & (s & Is & Ds) & En & Sl).
      apply add_autos_safe with (au := au) (ts := ts); [exact Ks| |exact Sl|exact Au|exact Et| |exact Q3|].
      - intros target r I. apply (En target r). rewrite <- (windows_for_of b target). exact I.
      - apply in_app_or in Is as [I|I]; apply in_map_iff in I as (x & <- & I).
        + apply S2. left. apply S1. right. destruct (b_sequence b); [destruct I|discriminate].
        + apply S2. right. destruct (b_timed b); [destruct I|discriminate].
      - apply G3. apply in_app_or in Is as [I|I]; apply in_map_iff in I as (x & <- & I).
        + apply H2. left. apply H1. right. eauto.
        + apply H2. right. eauto. }
    cbn [bind]. match goal with |- context [bind ?r _] => assert (exists q5 pr, r = Ok (q5, pr) /\ q_safe skills q5) as (q5 & pr & -> & Q5) end.
    { destruct (b_fight_start (with_windows b w)); [eauto|]. apply (shift_safe skills resources Usable), Q4. }
    cbn [bind]. destruct (downtime_safe skills resources Usable (b_windows (with_windows b w)) q5 Q5) as (q6 & -> & _). cbn [bind].
    eexists. split; [reflexivity|]. exact D2.
  Qed.
End Run.

(** ** Runs of the API *)

(** The rotation can be played with these skills, and maybe more. *)
Definition fit (b : builder) (skills : skill -> Prop) : Prop :=
  exists settings,
    get_all_resource_settings (b_library b) (st_job (b_stats b)) = Ok settings
    /\ (exists br, get_all_combo_breakers (b_library b) (st_job (b_stats b)) = Ok br)
    /\ (exists c, get_consts (st_version (b_stats b)) (st_level (b_stats b)) = Ok c)
    /\ (forall s, skills s -> usable (map fst settings) s) /\ never_both_force skills
    /\ (forall s, In s (skills_of b) -> skills s)
    /\ (forall x, In x (b_sequence b) -> usable_modifier (sq_skill x) (sq_modifier x))
    /\ (forall x, In x (b_timed b) -> usable_modifier (tm_skill x) (tm_modifier x))
    /\ comparable b.

Lemma targets_there b targets : fst (process_targets b targets) <> [].
Proof. exact (targets_named_ne _ _ (split_targets_named _)). Qed.
Lemma timing_fields b b' : get_skill_timing b = Ok b' ->
  b_timed b' = b_timed b /\ b_sequence b' = b_sequence b /\ b_stats b' = b_stats b /\ b_library b' = b_library b.
Proof.
  unfold get_skill_timing. intros H.
  apply bind_ok in H as (? & _ & H). apply bind_ok in H as (? & _ & H). apply bind_ok in H as (? & _ & H). apply bind_ok in H as (? & _ & H).
  apply bind_ok in H as ([? ?] & _ & H). apply bind_ok in H as (? & _ & H).
  injection H as <-. repeat split.
Qed.
Lemma reach_targets b : reachable b ->
  (forall x, In x (b_sequence b) -> sq_targets x <> []) /\ (forall x, In x (b_timed b) -> tm_targets x <> []).
Proof.
  induction 1 as [st lib snap autos trailing start w target b H|b t name m job targets b' _ IH H|b name m job n targets b' _ IH H|b on _ IH|b on _ IH|b b' _ IH H].
  - unfold rb_init in H. apply bind_ok in H as (? & _ & H). injection H as <-. split; intros ? [].
  - apply add_fields in H as (s & j & tg & _ & -> & -> & _). cbn. split; [apply IH|]. intros x Hx.
    apply in_app_or in Hx as [Hx|[<-|[]]]; [apply IH, Hx|apply targets_there].
  - apply add_next_fields in H as (s & j & tg & _ & -> & -> & _). cbn. split; [|apply IH]. intros x Hx.
    apply in_app_or in Hx as [Hx|Hx]; [apply IH, Hx|]. apply repeat_spec in Hx. subst x. apply targets_there.
  - exact IH.
  - exact IH.
  - apply timing_fields in H as (-> & -> & _). exact IH.
Qed.

Lemma run_dots b b' skills : fit b skills -> reachable b -> dots_safe skills (b_dots b) -> get_skill_timing b = Ok b' -> dots_safe skills (b_dots b').
Proof.
  intros (settings & R & B & C & U & F & P & SM & TM & Co) Re D H. destruct (reach_targets b Re) as (TS & TT).
  assert (SM' : forall x, In x (b_sequence b) -> usable_modifier (sq_skill x) (sq_modifier x) /\ sq_targets x <> []) by auto.
  assert (TM' : forall x, In x (b_timed b) -> usable_modifier (tm_skill x) (tm_modifier x) /\ tm_targets x <> []) by auto.
  unfold get_skill_timing in H. cbv zeta in H.
  destruct (q_sequence_safe b settings skills R B C U F P SM' q_init (b_dots b) [] (b_stamps b) (q_safe_init _) D) as (p1 & E1 & (Q1 & D1) & _).
  change (process_q_sequence (with_windows b (process_downtime_windows b))) with (process_q_sequence b) in H.
  cbn [with_windows b_dots b_stamps] in H. rewrite E1 in H. cbn [bind] in H.
  destruct (q_timed_safe b settings skills R B C U F P TM' Co (si_queue (pa_sim p1)) (si_dots (pa_sim p1)) (pa_press p1) (pa_stamps p1) Q1 D1) as (p2 & E2 & (Q2 & D2) & _).
  change (process_q_timed (with_windows b (process_downtime_windows b))) with (process_q_timed b) in H. cbn [with_windows] in H. rewrite E2 in H. cbn [bind] in H.
  apply bind_ok in H as (? & _ & H). apply bind_ok in H as (? & _ & H). apply bind_ok in H as ([? ?] & _ & H). apply bind_ok in H as (? & _ & H).
  injection H as <-. exact D2.
Qed.
Lemma fit_less b b' skills : fit b' skills -> b_stats b' = b_stats b -> b_library b' = b_library b ->
  incl (b_sequence b) (b_sequence b') -> incl (b_timed b) (b_timed b') -> fit b skills.
Proof.
  intros (settings & R & B & C & U & F & P & SM & TM & Co) Es El I1 I2. rewrite Es, El in *. exists settings.
  split; [exact R|]. split; [exact B|]. split; [exact C|]. split; [exact U|]. split; [exact F|]. split.
  { intros s I. apply P. apply in_app_or in I as [I|I]; apply in_map_iff in I as (x & <- & I); apply in_or_app; [left|right]; apply in_map; auto. }
  split; [auto|]. split; [auto|]. intros x y Hx Hy. apply Co; auto.
Qed.
Lemma reach_dots b : reachable b -> forall skills, fit b skills -> dots_safe skills (b_dots b).
Proof.
  induction 1 as [st lib snap autos trailing start w target b H|b t name m job targets b' R IH H|b name m job n targets b' R IH H|b on _ IH|b on _ IH|b b' R IH H]; intros skills F.
  - unfold rb_init in H. apply bind_ok in H as (? & _ & H). injection H as <-. intros ? ? [].
  - apply add_fields in H as (s & j & tg & _ & -> & _). apply IH. eapply fit_less; [exact F|reflexivity|reflexivity|apply incl_refl|]. intros x Hx. apply in_or_app. auto.
  - apply add_next_fields in H as (s & j & tg & _ & -> & _). apply IH. eapply fit_less; [exact F|reflexivity|reflexivity| |apply incl_refl]. intros x Hx. apply in_or_app. auto.
  - apply IH. exact F.
  - apply IH. exact F.
  - assert (Fb : fit b skills). { pose proof (timing_fields _ _ H) as (E1 & E2 & E3 & E4). eapply fit_less; [exact F|exact E3|exact E4| |]; [rewrite E2|rewrite E1]; apply incl_refl. }
    eapply run_dots; [exact Fb|exact R|apply IH, Fb|exact H].
Qed.

Lemma pressable_fit b : pressable b -> fit b (run_skill b).
Proof.
  intros (settings & R & B & C & U & F & SM & TM & Co). exists settings. repeat (split; [assumption|]). split; [|auto]. intros s I. left. exact I.
Qed.
Theorem timing_safe b : reachable b -> pressable b -> (b_autos b = true -> autos_possible b) -> exists b', get_skill_timing b = Ok b'.
Proof.
  intros Re Pr A. pose proof (pressable_fit b Pr) as Fi. pose proof (reach_dots b Re _ Fi) as D. destruct (reach_targets b Re) as (TS & TT).
  destruct Fi as (settings & R & B & C & U & F & P & SM & TM & Co).
  destruct (run_safe b settings (run_skill b) R B C U F P) as (b' & E & _); [auto|auto|exact Co|exact D| |eauto].
  intros Ea. destruct (A Ea) as (Hit & (au & ts & Au & Et) & En & Sl). exists au, ts.
  split; [exact Au|]. split; [right; auto|]. split; [exact Et|]. split; [exact Hit|]. split; [exact En|].
  intros evs t bu de He Ef. exact (Sl au evs t bu de Au He Ef).
Qed.
