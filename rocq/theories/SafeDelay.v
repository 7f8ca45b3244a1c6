(** * Shipped effects leave at least 10 ms between autos *)

From Coq Require Import ZArith QArith Arith List String Bool Lia Lqa.
From Verif Require Import Base BaseFacts Strings Float FloatFacts Types Lookup Stats StatusEffect SpecStatus StatusFacts Library Events Rotation SpecGame GameCheck
  SafeCheck SpecTimeline SpecAuto AutoFacts SpecHit SafeFacts.
Import ListNotations.
Open Scope string_scope.
Open Scope Z_scope.

(** ** Products of at most nine factors of 3/4 or more and one of 1/2 or more *)

Definition weight (k r : nat) : Q := Qmake (3 ^ Z.of_nat k) (Z.to_pos (2 ^ (2 * Z.of_nat k + Z.of_nat r))).
Definition weight_ok (k r : nat) : bool :=
  Qeq_bool (fl (weight k r)) (weight k r) && Qle_bool 0 (weight k r)
  && Qle_bool (weight (S k) r) (fmul (weight k r) (3 # 4)) && Qle_bool (weight k (S r)) (fmul (weight k r) (1 # 2)).
Lemma weights_ok : forallb (fun k => forallb (weight_ok k) (seq 0 3)) (seq 0 11) = true.
Proof. vm_compute. reflexivity. Qed.
Lemma weight_facts k r : (k <= 10)%nat -> (r <= 2)%nat ->
  (fl (weight k r) == weight k r /\ 0 <= weight k r /\ weight (S k) r <= fmul (weight k r) (3 # 4)
   /\ weight k (S r) <= fmul (weight k r) (1 # 2))%Q.
Proof.
  intros K R. pose proof weights_ok as W. rewrite forallb_forall in W. specialize (W k). rewrite in_seq in W.
  specialize (W ltac:(lia)). rewrite forallb_forall in W. specialize (W r). rewrite in_seq in W. specialize (W ltac:(lia)).
  unfold weight_ok in W. rewrite !andb_true_iff, !Qle_bool_iff, Qeq_bool_iff in W. tauto.
Qed.
Lemma less_ok : (3 # 4 <= fsub 1 (1 # 4) /\ 1 # 2 <= fsub 1 (1 # 2) /\ 1 <= fsub 1 0)%Q.
Proof. repeat split; vm_compute; discriminate. Qed.
Lemma keep_step k r a x : (k <= 9)%nat -> (r <= 1)%nat -> (weight k r <= a)%Q -> (x == 0)%Q -> (weight k r <= fmul a (fsub 1 x))%Q.
Proof.
  intros K R A X. destruct (weight_facts k r ltac:(lia) ltac:(lia)) as (E & P & _ & _). destruct less_ok as (_ & _ & O).
  assert (B : (1 <= fsub 1 x)%Q) by (eapply Qle_trans; [exact O|]; apply fsub_mono; lra).
  unfold fmul. apply fl_ge_of; [exact E|]. nra.
Qed.
Lemma quick_step k r a x : (k <= 9)%nat -> (r <= 1)%nat -> (weight k r <= a)%Q -> (x <= 1 # 4)%Q -> (weight (S k) r <= fmul a (fsub 1 x))%Q.
Proof.
  intros K R A X. destruct (weight_facts k r ltac:(lia) ltac:(lia)) as (_ & P & Q & _). destruct less_ok as (O & _ & _).
  eapply Qle_trans; [exact Q|]. apply fmul_mono; [exact P|exact A|lra|]. eapply Qle_trans; [exact O|]. apply fsub_mono; lra.
Qed.
Lemma wind_step k r a x : (k <= 9)%nat -> (r <= 1)%nat -> (weight k r <= a)%Q -> (x <= 1 # 2)%Q -> (weight k (S r) <= fmul a (fsub 1 x))%Q.
Proof.
  intros K R A X. destruct (weight_facts k r ltac:(lia) ltac:(lia)) as (_ & P & _ & Q). destruct less_ok as (_ & O & _).
  eapply Qle_trans; [exact Q|]. apply fmul_mono; [exact P|exact A|lra|]. eapply Qle_trans; [exact O|]. apply fsub_mono; lra.
Qed.

(** ** What the tracker holds *)

Definition holds (P : string -> status_spec -> Prop) (d : dict active) : Prop := forall n a, In (n, a) d -> P n (ac_spec a).
Lemma holds_dset P d n a : holds P d -> P n (ac_spec a) -> holds P (dset n a d).
Proof. intros H Pa n' a' I. apply dset_in in I as [[= -> ->]|I]; auto. Qed.
Lemma holds_get P d n a : holds P d -> dget n d = Some a -> P n (ac_spec a).
Proof. intros H E. apply H, dget_in, E. Qed.
Lemma holds_filter P f d : holds P d -> holds P (filter f d).
Proof. intros H n a I. apply filter_In in I. apply H, I. Qed.
Lemma holds_nil P : holds P [].
Proof. intros ? ? []. Qed.
Lemma holds_add P d t n sp : holds P d -> P n sp -> holds P (add_effect d t n sp).
Proof.
  intros H Ps. unfold add_effect. destruct (dget n d) as [prev|] eqn:E; [apply holds_dset; [exact H|exact Ps]|].
  destruct (extend_only sp); [exact H|]. apply holds_dset; [exact H|exact Ps].
Qed.
Lemma holds_end P d n t : holds P d -> holds P (end_effect d n t).
Proof.
  intros H. unfold end_effect. destruct (dget n d) as [a|] eqn:E; [|exact H]. apply holds_dset; [exact H|exact (holds_get _ _ _ _ H E)].
Qed.

Section Hold.
  Variables (B D : string -> status_spec -> Prop).
  Definition se_holds (st : se_tracker) : Prop := holds B (se_buffs st) /\ forall tg d, In (tg, d) (se_debuffs st) -> holds D d.
  Lemma se_holds_debuffs st tg : se_holds st -> holds D (get_debuffs st tg).
  Proof.
    intros (_ & H). unfold get_debuffs. destruct (dget tg (se_debuffs st)) as [d|] eqn:E; [|apply holds_nil].
    apply dget_in in E. exact (H _ _ E).
  Qed.
  Lemma se_holds_set_buffs st b : se_holds st -> holds B b -> se_holds (set_buffs st b).
  Proof. intros (_ & H) C. split; [exact C|exact H]. Qed.
  Lemma se_holds_set_debuffs st tg d : se_holds st -> holds D d -> se_holds (set_debuffs st tg d).
  Proof. intros (H & K) C. split; [exact H|]. intros tg' d' I. apply dset_in in I as [[= -> ->]|I]; [exact C|exact (K _ _ I)]. Qed.
  Lemma se_holds_named st n t tg : se_holds st -> se_holds (expire_named_effect st n t tg).
  Proof.
    intros C. unfold expire_named_effect. set (st1 := set_buffs st _).
    assert (C1 : se_holds st1) by (apply se_holds_set_buffs; [exact C|apply holds_end, C]).
    destruct (dget n (get_debuffs st1 tg)); [|exact C1]. apply se_holds_set_debuffs; [exact C1|]. apply holds_end, se_holds_debuffs, C1.
  Qed.
  Lemma se_holds_expire st t : se_holds st -> se_holds (expire_status_effects t st).
  Proof.
    intros (H & K). split; [apply holds_filter, H|]. cbn. intros tg d I. apply in_map_iff in I as ([tg' d'] & [= <- <-] & I).
    apply holds_filter. exact (K _ _ I).
  Qed.
  Lemma se_holds_add st t s m targets st' : se_holds st -> add_to_status_effects st t s m targets = Ok st' ->
    (forall e, In e (cvalues (sk_buff s)) -> B (sk_name s) e) -> (forall e, In e (cvalues (sk_debuff s)) -> D (sk_name s) e) -> se_holds st'.
  Proof.
    intros H E Hb Hd. unfold add_to_status_effects in E. apply bind_ok in E as (b & Eb & E). apply bind_ok in E as (d & Ed & E). injection E as <-.
    set (st1 := match b with Some _ => _ | None => _ end).
    assert (C1 : se_holds st1).
    { unfold st1. destruct b as [sp|]; [|exact H]. unfold apply_buff. apply fold_left_inv; [|intros; apply se_holds_named; assumption].
      apply se_holds_set_buffs; [exact H|]. apply holds_add; [|apply Hb; exact (cspec_declared _ _ _ Eb)].
      destruct (clear_all_status_effects sp); [apply holds_nil|apply H]. }
    destruct d as [sp|]; [|exact C1]. apply fold_left_inv; [exact C1|]. intros s' a _ Hs. unfold apply_debuff.
    apply fold_left_inv; [|intros; apply se_holds_named; assumption]. apply se_holds_set_debuffs; [exact Hs|].
    apply holds_add; [apply se_holds_debuffs, Hs|]. apply Hd. exact (cspec_declared _ _ _ Ed).
  Qed.
  Lemma se_holds_started targets st l st' : started targets st l st' -> se_holds st -> se_wf st ->
    (forall x, In x l -> (forall e, In e (cvalues (sk_buff (snd x))) -> B (sk_name (snd x)) e)
                         /\ (forall e, In e (cvalues (sk_debuff (snd x))) -> D (sk_name (snd x)) e)) ->
    se_holds st' /\ se_wf st'.
  Proof.
    induction 1 as [st|st t s st1 l st' E _ IH]; intros H W F; [auto|]. apply IH.
    - eapply se_holds_add; [apply se_holds_expire, H|exact E| |]; apply (F (t, s) (or_introl eq_refl)).
    - eapply wf_add; [apply wf_expire, W|exact E].
    - intros x I. apply F. right. exact I.
  Qed.
End Hold.

(** ** Compiling them *)

Definition quick (n : string) (e : status_spec) : Prop := quick_ok n e = true.
Definition slow (n : string) (e : status_spec) : Prop := (auto_attack_delay_reduction e == 0)%Q.

Definition count_quick (l : list string) : nat := List.length (filter (fun n => smem n quick_names) l).
Definition count_wind (l : list string) : nat := List.length (filter (String.eqb "Riddle of Wind") l).
Lemma count_quick_le l : NoDup l -> (count_quick l <= 9)%nat.
Proof.
  intros N. unfold count_quick. change 9%nat with (List.length quick_names). apply NoDup_incl_length; [apply NoDup_filter, N|].
  intros x I. apply filter_In in I as [_ I]. apply smem_spec, I.
Qed.
Lemma count_wind_le l : NoDup l -> (count_wind l <= 1)%nat.
Proof.
  intros N. unfold count_wind. change 1%nat with (List.length ["Riddle of Wind"]). apply NoDup_incl_length; [apply NoDup_filter, N|].
  intros x I. apply filter_In in I as [_ I]. apply String.eqb_eq in I. left. exact I.
Qed.
Lemma merge_delay e sp e' : merge_effect e sp = Ok e' ->
  ef_auto_delay_mult e' = fmul (ef_auto_delay_mult e) (fsub 1 (auto_attack_delay_reduction sp)).
Proof.
  unfold merge_effect. intros H. apply bind_ok in H as (? & _ & H). apply bind_ok in H as (? & _ & H). injection H as <-. reflexivity.
Qed.
Lemma use_quick names : forall d e c d' e' c' k r, foldM use_effect names (d, e, c) = Ok (d', e', c') -> holds quick d ->
  (k + count_quick names <= 9)%nat -> (r + count_wind names <= 1)%nat -> (weight k r <= ef_auto_delay_mult e)%Q ->
  exists k' r', (k' <= 9)%nat /\ (r' <= 1)%nat /\ (weight k' r' <= ef_auto_delay_mult e')%Q.
Proof.
  induction names as [|n names IH]; intros d e c d' e' c' k r H Q K R W; cbn [foldM] in H.
  - injection H as <- <- <-. unfold count_quick, count_wind in *. cbn in *. exists k, r. repeat split; [lia|lia|exact W].
  - apply bind_ok in H as ([[d1 e1] c1] & E & H). unfold use_effect in E. apply bind_ok in E as (a & Ea & E).
    destruct (dget n d) as [a0|] eqn:G; [|discriminate]. injection Ea as ->.
    apply bind_ok in E as (e2 & Em & E). injection E as <- <- <-. apply merge_delay in Em.
    pose proof (holds_get _ _ _ _ Q G) as Qa. unfold quick, quick_ok in Qa. cbv zeta in Qa.
    assert (Q1 : holds quick (dset n (mkActive (ac_start a) (ac_end a) (ext_subz (ac_uses a) 1) (ac_spec a)) d)).
    { apply holds_dset; [exact Q|]. exact (holds_get _ _ _ _ Q G). }
    unfold count_quick, count_wind in K, R. cbn [filter] in K, R.
    rewrite !orb_true_iff, !andb_true_iff, Qeq_bool_iff, !Qle_bool_iff in Qa. destruct Qa as [[X|[M X]]|[M X]].
    + apply (IH _ _ _ _ _ _ k r H Q1).
      * unfold count_quick. destruct (smem n quick_names); cbn [List.length] in K; lia.
      * unfold count_wind. destruct (String.eqb "Riddle of Wind" n); cbn [List.length] in R; lia.
      * rewrite Em. apply keep_step; [lia|lia|exact W|exact X].
    + rewrite M in K. cbn [List.length] in K. apply (IH _ _ _ _ _ _ (S k) r H Q1).
      * unfold count_quick. lia.
      * unfold count_wind. destruct (String.eqb "Riddle of Wind" n); cbn [List.length] in R; lia.
      * rewrite Em. apply quick_step; [lia|lia|exact W|exact X].
    + rewrite String.eqb_sym in M. rewrite M in R. cbn [List.length] in R. apply (IH _ _ _ _ _ _ k (S r) H Q1).
      * unfold count_quick. destruct (smem n quick_names); cbn [List.length] in K; lia.
      * unfold count_wind. lia.
      * rewrite Em. apply wind_step; [lia|lia|exact W|exact X].
Qed.
Lemma use_slow names : forall d e c d' e' c', foldM use_effect names (d, e, c) = Ok (d', e', c') -> holds slow d ->
  (1 <= ef_auto_delay_mult e)%Q -> (1 <= ef_auto_delay_mult e')%Q.
Proof.
  induction names as [|n names IH]; intros d e c d' e' c' H Q W; cbn [foldM] in H; [injection H as <- <- <-; exact W|].
  apply bind_ok in H as ([[d1 e1] c1] & E & H). unfold use_effect in E. apply bind_ok in E as (a & Ea & E).
  destruct (dget n d) as [a0|] eqn:G; [|discriminate]. injection Ea as ->.
  apply bind_ok in E as (e2 & Em & E). injection E as <- <- <-. apply merge_delay in Em.
  pose proof (holds_get _ _ _ _ Q G) as Qa. apply (IH _ _ _ _ _ _ H).
  - apply holds_dset; [exact Q|exact Qa].
  - rewrite Em. exact (keep_step 0 0 _ _ ltac:(lia) ltac:(lia) W Qa).
Qed.
Lemma lowest k r : (k <= 9)%nat -> (r <= 1)%nat -> (weight 9 1 <= weight k r)%Q.
Proof.
  intros K R. assert (C : forallb (fun k => forallb (fun r => Qle_bool (weight 9 1) (weight k r)) (seq 0 2)) (seq 0 10) = true) by reflexivity.
  rewrite forallb_forall in C. specialize (C k). rewrite in_seq in C. specialize (C ltac:(lia)). rewrite forallb_forall in C.
  specialize (C r). rewrite in_seq in C. apply Qle_bool_iff, C. lia.
Qed.
Lemma compile_names_nodup prio t d deny n : NoDup (dkeys d) -> NoDup (delete_lower_priority prio (valid_status_effects t d deny n)).
Proof.
  intros N. eapply sublist_nodup; [apply delete_lower_priority_sublist|]. eapply sublist_nodup; [apply valid_status_effects_sub|exact N].
Qed.
Lemma buffs_bound st t s st' e c : se_wf st -> holds quick (se_buffs st) -> compile_buffs st t s = Ok (st', (e, c)) ->
  (weight 9 1 <= ef_auto_delay_mult e)%Q.
Proof.
  intros W H C. unfold compile_buffs in C. apply bind_ok in C as ([d [e' c']] & C & X). injection X as <- <- <-.
  unfold compile_effects in C. apply bind_ok in C as ([[d1 e1] c1] & C & X). injection X as <- <- <-.
  pose proof (compile_names_nodup (se_priority st) t (se_buffs st) (sk_denylist s) (sk_name s) (wf_buffs _ W)) as N.
  destruct (use_quick _ _ _ _ _ _ _ 0 0 C H) as (k & r & K & R & B).
  - pose proof (count_quick_le _ N). lia.
  - pose proof (count_wind_le _ N). lia.
  - vm_compute. discriminate.
  - cbn [set_names ef_auto_delay_mult]. eapply Qle_trans; [exact (lowest k r K R)|exact B].
Qed.
Lemma debuffs_bound st t s tg st' e c : holds slow (get_debuffs st tg) -> compile_debuffs st t s tg = Ok (st', (e, c)) ->
  (1 <= ef_auto_delay_mult e)%Q.
Proof.
  intros H C. unfold compile_debuffs in C. apply bind_ok in C as ([d [e' c']] & C & X). injection X as <- <- <-.
  unfold compile_effects in C. apply bind_ok in C as ([[d1 e1] c1] & C & X). injection X as <- <- <-.
  cbn [set_names ef_auto_delay_mult]. apply (use_slow _ _ _ _ _ _ _ C H). cbn. lra.
Qed.

(** ** The delay *)

Lemma trait_small st g : stats_of g = Ok st -> (1 # 2 <= fsub 1 (ps_trait_auto st))%Q.
Proof.
  unfold stats_of, make_stats. intros H. apply bind_ok in H as (c & _ & H). apply bind_ok in H as (jm & _ & H).
  apply bind_ok in H as (red & R & H). apply bind_ok in H as (w & _ & H). injection H as <-. cbn [ps_trait_auto].
  assert (C : red = 0%Q \/ red = dec 2 10 \/ red = dec 15 100).
  { unfold trait_reduction_of in R. destruct (is_test (g_version g)).
    - injection R as <-. destruct (String.eqb _ _); auto.
    - apply bind_ok in R as (data & E & R). injection R as <-. unfold reduction_data in E.
      destruct (g_level g =? 90); [|destruct (g_level g =? 100); [|discriminate]]; injection E as <-; unfold get_greatest_dict_val;
        destruct (get_greatest_val_less_than_query _ _) as [k|]; auto; cbn [dget];
        repeat (match goal with |- context [String.eqb ?a ?b] => destruct (String.eqb a b) end; cbn [dget]; auto). }
  destruct C as [->|[->| ->]]; vm_compute; discriminate.
Qed.
Lemma delay_enough st buffs debuffs :
  (1 <= st_weapon_delay st)%Q -> (1 # 2 <= fsub 1 (ps_trait_auto st))%Q ->
  (weight 9 1 <= ef_auto_delay_mult buffs)%Q -> (1 <= ef_auto_delay_mult debuffs)%Q -> 10 <= hasted_delay st buffs debuffs.
Proof.
  intros W T B D. unfold hasted_delay.
  assert (I : (1000 <= inject_Z (qtrunc (fmul 1000 (st_weapon_delay st))))%Q).
  { change 1000%Q with (inject_Z 1000). rewrite <- Zle_Qle. apply Z.le_trans with (qtrunc (inject_Z 1000)); [rewrite qtrunc_int; lia|]. apply qtrunc_mono.
    unfold fmul. apply (fl_ge_int _ 1000); [cbn; lia|]. change (inject_Z 1000) with 1000%Q. lra. }
  set (i := inject_Z _) in *. clearbody i.
  transitivity (qtrunc (fmul 10 (ffloor (fdiv (fmul (fmul (fmul 1000 (1 # 2)) (weight 9 1)) 1) 10)))); [vm_compute; discriminate|].
  apply qtrunc_mono, fmul_mono_r; [lra|]. apply ffloor_mono, fdiv_mono; [lra|].
  apply fmul_mono; [apply Qle_bool_iff; vm_compute; reflexivity| |lra|exact D].
  apply fmul_mono; [apply Qle_bool_iff; vm_compute; reflexivity| |apply Qle_bool_iff; vm_compute; reflexivity|exact B].
  apply fmul_mono; [lra|exact I|lra|exact T].
Qed.
Lemma auto_effects_bound b evs t au buffs debuffs :
  auto_effects b evs t au buffs debuffs ->
  (forall e, In e evs -> (forall x, In x (cvalues (sk_buff (ev_skill e))) -> quick (sk_name (ev_skill e)) x)
                         /\ (forall x, In x (cvalues (sk_debuff (ev_skill e))) -> slow (sk_name (ev_skill e)) x)) ->
  (weight 9 1 <= ef_auto_delay_mult buffs)%Q /\ (1 <= ef_auto_delay_mult debuffs)%Q.
Proof.
  intros (raw & past & future & se & se1 & se2 & mb & md & Raw & Perm & _ & _ & _ & St & Cb & Cd) F.
  assert (R : forall x, In x raw -> exists e, In e evs /\ ev_skill e = snd x).
  { clear - Raw. induction Raw as [|e t l out H _ IH|e l out H _ IH]; intros x I; [destruct I| |].
    - destruct I as [<-|I]; [exists e; cbn; auto|]. destruct (IH x I) as (e' & J & E). exists e'. cbn; auto.
    - destruct (IH x I) as (e' & J & E). exists e'. cbn; auto. }
  destruct (se_holds_started quick slow _ _ _ _ St) as [H W].
  - split; [apply holds_nil|intros ? ? []].
  - apply se_wf_init.
  - intros x I. destruct (R x) as (e & J & <-); [|apply F, J].
    eapply Permutation.Permutation_in; [apply Permutation.Permutation_sym, Perm|]. apply in_or_app. auto.
  - pose proof (se_holds_expire _ _ _ t H) as He. split.
    + eapply buffs_bound; [apply wf_expire, W|apply He|exact Cb].
    + eapply debuffs_bound; [|exact Cd]. unfold compile_buffs in Cb. apply bind_ok in Cb as ([d r] & _ & X). injection X as <- _.
      exact (se_holds_debuffs quick slow _ DEFAULT_TARGET He).
Qed.
