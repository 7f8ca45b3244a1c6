(** * Further timed buffs change no other event (C86) *)

From Coq Require Import ZArith QArith List String Bool Lia Permutation Sorted.
From Verif Require Import Base BaseFacts Heap HeapFacts Float Strings Types Lookup StatusEffect JobResource Combo Stats Library Events Rotation SpecQueue SpecPlay
  SpecTimeline SpecDots SpecGame SpecRun SpecLater SpecReplay SpecShuffle SpecIdle CondFacts StatusFacts EventsFacts PlayFacts LogFacts TimelineFacts DotFacts RunFacts RunProps SafeFacts LaterFacts ReplayFacts ShuffleFacts
  DamageBuild SpecCause DamageRun SpecBuff IdleFacts BuffFacts.
Import ListNotations.
Open Scope Z_scope.

Section Extra.
Variable extra : string -> bool.
Notation se_more := (se_more extra).
Notation tk_more := (tk_more extra).
Notation tk_ahead := (tk_ahead extra).
Notation usual := (usual extra).

(** ** A press *)
Lemma less_compile_buffs a b t s y : se_more a b -> compile_buffs b t s = Ok y -> exists x, compile_buffs a t s = Ok x.
Proof.
  unfold compile_buffs. intros (P & C & B & D & G & _) H'. rewrite P in H'.
  apply bind_ok in H' as ([d' [e' c']] & A' & H'). destruct (compile_extra_free _ _ _ _ _ _ _ _ _ G C A') as (e1 & A & _). rewrite B in A. rewrite A. cbn [bind]. eauto.
Qed.
Lemma less_compile_debuffs a b t s z y : se_more a b -> compile_debuffs b t s z = Ok y -> exists x, compile_debuffs a t s z = Ok x.
Proof.
  unfold compile_debuffs. intros (P & C & B & D & _ & G) H'. rewrite P in H'.
  apply bind_ok in H' as ([d' [e' c']] & A' & H'). destruct (compile_extra_free _ _ _ _ _ _ _ _ _ (G z) C A') as (e1 & A & _). rewrite D in A. rewrite A. cbn [bind]. eauto.
Qed.
Lemma less_add a b t s m l y : add_to_status_effects b t s m l = Ok y -> exists x, add_to_status_effects a t s m l = Ok x.
Proof.
  unfold add_to_status_effects. intros H. apply bind_ok in H as (bu & A & H). rewrite A. cbn [bind]. apply bind_ok in H as (de & A' & H). rewrite A'. cbn [bind]. eauto.
Qed.

Lemma less_press T a b t s m y : tk_ahead T a b -> T <= t -> compile_press b t s m = Ok y ->
  exists a1 m1 bu de b1 bu' de', y = (b1, m1, bu', de') /\ compile_press a t s m = Ok (a1, m1, bu, de) /\ tk_more a1 b1 /\ boosted bu bu' /\ boosted de de'.
Proof.
  intros (S & J & K & F) L. unfold compile_press. specialize (S t L). rewrite J, K. intros H.
  apply bind_ok in H as ([se1' [bu' mb']] & A & H). destruct (less_compile_buffs _ _ _ _ _ S A) as ([se1 [bu mb]] & A0).
  destruct (more_compile_buffs extra _ _ _ _ _ _ S A0 A) as (S1 & B1 & M1). cbn [fst snd] in *. subst mb'. rewrite A0. cbn [bind].
  apply bind_ok in H as ([se2' [de' md']] & D & H). destruct (less_compile_debuffs _ _ _ _ _ _ S1 D) as ([se2 [de md]] & D0).
  destruct (more_compile_debuffs extra _ _ _ _ _ _ _ S1 D0 D) as (S2 & B2 & M2). cbn [fst snd] in *. subst md'. rewrite D0. cbn [bind].
  pose proof (free_compile extra _ t (sk_name s) F) as F1.
  destruct (compile_job_resources (tk_jr a) t (sk_name s)) as [jr mj]. cbn [fst] in F1.
  apply bind_ok in H as ([ct mc] & C & H). rewrite C. cbn [bind]. injection H as <-.
  do 7 eexists. split; [reflexivity|]. split; [reflexivity|]. split; [|split; assumption]. split; [exact S2|]. split; [reflexivity|]. split; [reflexivity|exact F1].
Qed.
Lemma extra_press T a b t s m y : tk_ahead T a b -> T <= t -> extra (sk_name s) = true -> support s -> compile_press b t s m = Ok y ->
  tk_more (mkTrackers (expire_status_effects t (tk_se a)) (tk_jr a) (tk_combo a)) (fst (fst (fst y))).
Proof.
  intros (S & J & K & F) L X Su. unfold compile_press. specialize (S t L). rewrite J, K. intros H.
  apply bind_ok in H as ([se1' [bu' mb']] & A & H). pose proof (extra_compile_buffs extra _ _ _ _ _ S X A) as S1. cbn [fst] in S1.
  apply bind_ok in H as ([se2' [de' md']] & D & H). pose proof (extra_compile_debuffs extra _ _ _ _ _ _ S1 X D) as S2. cbn [fst] in S2.
  pose proof (asks_nothing (sk_name s) (tk_jr a) t (F _ X)) as Q.
  destruct (compile_job_resources (tk_jr a) t (sk_name s)) as [jr mj]. cbn [fst] in Q. subst jr.
  apply bind_ok in H as ([ct mc] & C & H). injection H as <-. cbn [fst].
  destruct Su as (Su & _). unfold compile_and_update_combo in C. destruct (Su (add_to_condition (add_to_condition (add_to_condition m mb') md') mj)) as (_ & _ & R & _).
  rewrite R in C. cbn [bind fold_left] in C. injection C as <- _.
  split; [exact S2|]. split; [reflexivity|]. split; [reflexivity|exact F].
Qed.

(** ** What it does *)
Definition with_effects (p : played) (bu de : status_effects) : played :=
  mkPlayed (pl_time p) (pl_skill p) (pl_asked p) (pl_job p) (pl_targets p) (pl_modifier p) bu de (pl_timing p) (pl_cast p) (pl_follow_ups p).
Definition like (p p' : played) : Prop := exists bu de, p' = with_effects p bu de.
Definition plain (s : skill) : Prop := forall p, part_of p s -> extra (sk_name p) = false /\ forall e, In e (effects_of p) -> usual e.

Lemma cast_boosted st ts m bu bu' : boosted bu bu' -> get_cast_time st ts m bu' = get_cast_time st ts m bu.
Proof. intros (_ & _ & _ & H & C & _). unfold get_cast_time. rewrite H, C. reflexivity. Qed.

Lemma less_follow_up app tg fu a b b' : tk_more a b -> plain (fu_skill fu) -> fu_trackers app tg b fu = Ok b' ->
  exists a', fu_trackers app tg a fu = Ok a' /\ tk_more a' b'.
Proof.
  intros (S & J & K & F) Pl. unfold fu_trackers. destruct (fu_dot fu); [intros H; injection H as <-; eexists; split; [reflexivity|]; split; [exact S|]; split; [exact J|]; split; assumption|].
  intros H. apply bind_ok in H as (l & -> & H). cbn [bind]. apply bind_ok in H as (se' & A & H). destruct (less_add (tk_se a) _ _ _ _ _ _ A) as (se & A0). rewrite A0. cbn [bind].
  destruct (Pl _ (part_self _)) as (X & U).
  pose proof (more_add extra _ _ _ _ _ _ _ _ S X U A0 A) as S1. rewrite J in H. apply bind_ok in H as (jr & E & H). rewrite E. cbn [bind]. injection H as <-.
  eexists. split; [reflexivity|]. split; [exact S1|]. split; [reflexivity|]. split; [exact K|]. exact (free_add extra _ _ _ _ _ F E).
Qed.
Lemma less_follow_ups app tg l : forall a b b', tk_more a b -> (forall fu, In fu l -> plain (fu_skill fu)) -> foldM (fu_trackers app tg) l b = Ok b' ->
  exists a', foldM (fu_trackers app tg) l a = Ok a' /\ tk_more a' b'.
Proof.
  induction l as [|fu l IH]; intros a b b' M Pl; cbn [foldM]; intros H; [injection H as <-; eauto|].
  apply bind_ok in H as (b1 & A & H). destruct (less_follow_up _ _ _ _ _ _ M (Pl fu (or_introl eq_refl)) A) as (a1 & A0 & M1). rewrite A0. cbn [bind].
  apply (IH _ _ _ M1); [intros f I; apply Pl; right; exact I|exact H].
Qed.

Lemma less_skill st a b p0 bu de p' b' : tk_more a b -> plain (pl_skill p0) -> boosted (pl_buffs p0) bu ->
  skill_effect st b (with_effects p0 bu de) = Ok (p', b') -> exists p a', skill_effect st a p0 = Ok (p, a') /\ like p p' /\ tk_more a' b'.
Proof.
  intros (S & J & K & F) Pl Bo. unfold skill_effect. cbn [with_effects pl_time pl_skill pl_asked pl_job pl_targets pl_modifier pl_buffs pl_debuffs]. cbv zeta. rewrite J, K.
  intros H. apply bind_ok in H as (ts & Ets & H). rewrite Ets. cbn [bind]. apply bind_ok in H as (cast & A & H). rewrite (cast_boosted _ _ _ _ _ Bo) in A. rewrite A. cbn [bind]. clear A.
  apply bind_ok in H as ([sn ap] & A & H). rewrite A. cbn [bind]. clear A. apply bind_ok in H as (se' & A & H). destruct (less_add (tk_se a) _ _ _ _ _ _ A) as (se & A0). rewrite A0. cbn [bind].
  destruct (Pl _ (part_self _)) as (X & U). pose proof (more_add extra _ _ _ _ _ _ _ _ S X U A0 A) as S1. clear A A0.
  apply bind_ok in H as (jr & A & H). rewrite A. cbn [bind]. pose proof (free_add extra _ _ _ _ _ F A) as F1. clear A. apply bind_ok in H as (fus & A & H). rewrite A. cbn [bind].
  apply bind_ok in H as (tk' & G & H). injection H as <- <-.
  assert (M0 : tk_more (mkTrackers se jr (tk_combo a)) (mkTrackers se' jr (tk_combo a))) by (split; [exact S1|]; split; [reflexivity|]; split; [reflexivity|exact F1]).
  assert (Pf : forall fu, In fu fus -> plain (fu_skill fu)).
  { intros fu I p P. apply Pl. econstructor; [exact (tspec_declared _ _ _ _ A I)|exact P]. }
  destruct (less_follow_ups ap (pl_targets p0) fus _ _ _ M0 Pf G) as (a' & G0 & M1).
  rewrite G0. cbn [bind]. do 2 eexists. split; [reflexivity|]. split; [|exact M1]. exists bu, de. reflexivity.
Qed.
Lemma extra_skill st a b p0 p' b' : tk_more a b -> extra (sk_name (pl_skill p0)) = true -> support (pl_skill p0) ->
  skill_effect st b p0 = Ok (p', b') -> tk_more a b' /\ pl_follow_ups p' = [].
Proof.
  intros M X Su. unfold skill_effect. cbv zeta. intros H. apply bind_ok in H as (ts & _ & H). apply bind_ok in H as (cast & _ & H). apply bind_ok in H as ([sn ap] & _ & H).
  pose proof M as (S & J & K & F). pose proof Su as (Su1 & Su2). destruct (Su1 (pl_modifier p0)) as (_ & Fu & _ & R).
  apply bind_ok in H as (se' & A & H). pose proof (more_add_extra extra _ _ _ _ _ _ _ S X Su2 A) as S1.
  unfold add_resource in H. rewrite R in H. cbn [bind foldM] in H. rewrite Fu in H. cbn [bind foldM] in H. injection H as <- <-. split; [|reflexivity].
  split; [exact S1|]. split; [exact J|]. split; [exact K|exact F].
Qed.

Lemma less_timed st T a b x p' b' : tk_ahead T a b -> T <= tm_time x -> plain (tm_skill x) -> timed_effect st b x = Ok (p', b') ->
  exists p a', timed_effect st a x = Ok (p, a') /\ like p p' /\ tk_ahead (tm_time x) a' b' /\ pl_skill p' = tm_skill x.
Proof.
  intros M L Pl. unfold timed_effect. intros H. apply bind_ok in H as (y & A & H).
  destruct (less_press _ _ _ _ _ _ _ M L A) as (a1 & m1 & bu & de & b1 & bu' & de' & -> & A0 & M1 & Bo & _). rewrite A0. cbn [bind]. clear A A0.
  apply bind_ok in H as (m2 & A & H). rewrite A. cbn [bind]. apply bind_ok in H as (main & A' & H). rewrite A'. cbn [bind].
  set (p0 := mkPlayed (tm_time x) (tm_skill x) (tm_modifier x) (tm_job x) (tm_targets x) m2 bu de None 0 []).
  assert (T0 : tm_targets x <> []) by (intros Z; rewrite Z in A'; discriminate A').
  destruct (less_skill st a1 b1 p0 bu' de' p' b' M1 Pl Bo H) as (p & a' & G & Lk & M2). exists p, a'. split; [exact G|]. split; [exact Lk|].
  split; [split; [apply ahead_here, M2|apply M2]|].
  apply skill_effect_spec in H; [|exact T0]. apply H.
Qed.
Lemma extra_timed st T a b x p' b' : tk_ahead T a b -> T <= tm_time x -> extra (sk_name (tm_skill x)) = true -> support (tm_skill x) -> timed_effect st b x = Ok (p', b') ->
  tk_ahead (tm_time x) a b' /\ pl_follow_ups p' = [] /\ pl_skill p' = tm_skill x /\ pl_targets p' <> [].
Proof.
  intros M L X Su. unfold timed_effect. intros H. apply bind_ok in H as ([[[b1 m1] bu] de] & A & H). pose proof (extra_press _ _ _ _ _ _ _ M L X Su A) as M1. cbn [fst] in M1. clear A.
  apply bind_ok in H as (m2 & A & H). apply bind_ok in H as (main & A' & H). 
  assert (T0 : tm_targets x <> []) by (intros Z; rewrite Z in A'; discriminate A').
  pose proof (fun X' S' => extra_skill _ _ _ _ _ _ M1 X' S' H) as Y. destruct (Y X Su) as (M2 & Fu). clear Y.
  apply skill_effect_spec in H as (_ & _ & _ & Sk & _ & _ & Tg & _); [|exact T0]. cbn [pl_skill pl_targets] in *. rewrite Tg.
  destruct M2 as (M2 & M3). cbn [tk_se tk_jr tk_combo] in *. split; [split; [apply ahead_expired, M2|exact M3]|]. auto.
Qed.

Definition kept_timed (x : timed) : bool := negb (extra (sk_name (tm_skill x))).
Definition kept_played (p : played) : bool := negb (extra (sk_name (pl_skill p))).
Definition bare (p : played) : Prop := extra (sk_name (pl_skill p)) = true /\ support (pl_skill p) /\ pl_follow_ups p = [] /\ pl_targets p <> [].

Lemma less_timeds st o : forall T a b log' r', tk_ahead T a b -> Forall (fun x => T <= tm_time x) o -> StronglySorted (fun x y => tm_time x <= tm_time y) o ->
  (forall x, In x o -> if extra (sk_name (tm_skill x)) then support (tm_skill x) else plain (tm_skill x)) ->
  timed_log st b o = Ok (log', r') ->
  exists log r, timed_log st a (filter kept_timed o) = Ok (log, r) /\ Forall2 like log (filter kept_played log') /\ Forall bare (filter (fun p => negb (kept_played p)) log').
Proof.
  induction o as [|x o IH]; intros T a b log' r' M L S K H; cbn [timed_log filter] in *.
  - injection H as <- <-. exists [], a. split; [reflexivity|]. split; constructor.
  - inversion L as [|? ? Lx L']; subst. inversion S as [|? ? S' Fx]; subst.
    apply bind_ok in H as ([p' b1] & A & H). apply bind_ok in H as ([lg r1] & B & H). injection H as <- <-.
    pose proof (K x (or_introl eq_refl)) as Kx. unfold kept_timed at 1. destruct (extra (sk_name (tm_skill x))) eqn:X; cbn [negb].
    + destruct (extra_timed _ _ _ _ _ _ _ M Lx X Kx A) as (M1 & P1 & P2 & P3).
      destruct (IH _ _ _ _ _ M1 Fx S' (fun y I => K y (or_intror I)) B) as (log & r & E & F2 & Fb). exists log, r. split; [exact E|].
      assert (Kp : kept_played p' = false) by (unfold kept_played; rewrite P2, X; reflexivity). cbn [filter]. rewrite Kp. cbn [negb]. split; [exact F2|]. constructor; [|exact Fb]. unfold bare. rewrite P2. auto.
    + destruct (less_timed _ _ _ _ _ _ _ M Lx Kx A) as (p & a1 & G & Lk & M1 & P2).
      destruct (IH _ _ _ _ _ M1 Fx S' (fun y I => K y (or_intror I)) B) as (log & r & E & F2 & Fb). exists (p :: log), r. cbn [timed_log]. rewrite G. cbn [bind]. rewrite E. cbn [bind].
      split; [reflexivity|]. assert (Kp : kept_played p' = true) by (unfold kept_played; rewrite P2, X; reflexivity). cbn [filter]. rewrite Kp. cbn [negb]. split; [constructor; assumption|exact Fb].
Qed.

(** ** Logs *)
Lemma like_entries p p' : like p p' -> press_entries p' = press_entries p /\ press_dots p' = press_dots p.
Proof. intros (bu & de & ->). destruct p. split; reflexivity. Qed.
Lemma likes l l' : Forall2 like l l' -> flat_map press_entries l' = flat_map press_entries l /\ flat_map press_dots l' = flat_map press_dots l.
Proof.
  induction 1 as [|p p' l l' L F (IH1 & IH2)]; [split; reflexivity|]. cbn [flat_map]. destruct (like_entries _ _ L) as (-> & ->). rewrite IH1, IH2. split; reflexivity.
Qed.
Lemma bare_entries log : Forall bare (filter (fun p => negb (kept_played p)) log) ->
  Permutation (flat_map press_entries log) (map main_entry (filter (fun p => negb (kept_played p)) log) ++ flat_map press_entries (filter kept_played log))
  /\ flat_map press_dots log = flat_map press_dots (filter kept_played log).
Proof.
  induction log as [|p log IH]; cbn [filter flat_map]; intros F; [split; reflexivity|]. destruct (kept_played p) eqn:E; cbn [negb] in *.
  - destruct (IH F) as (P & D). cbn [flat_map]. rewrite D. split; [|reflexivity]. rewrite P, !app_assoc. apply Permutation_app_tail, Permutation_app_comm.
  - inversion F as [|? ? (_ & _ & Fu & _) F']; subst. destruct (IH F') as (P & D). unfold press_entries at 1, press_dots at 1. rewrite Fu. cbn [numbered app map].
    rewrite D. split; [constructor; exact P|reflexivity].
Qed.
End Extra.

(** ** Runs *)
Lemma moves_lesser s xs : forall l d, Forall (fun x => forall c, ~ damages x c) xs -> moves s (xs ++ l) d -> moves s l d.
Proof.
  induction xs as [|x xs IH]; intros l d F M; [exact M|]. inversion F; subst. apply IH; [assumption|]. eapply moves_less; eassumption.
Qed.
Lemma downtimed_frees w xs : forall l n, Forall (fun x => (forall c, ~ damages x c) /\ ev_targets x <> []) xs -> downtimed w (xs ++ l) n ->
  exists n', n = (xs ++ n')%list /\ downtimed w l n'.
Proof.
  induction xs as [|x xs IH]; intros l n F D; [exists n; auto|]. inversion F as [|? ? (A & B) F']; subst. cbn [app] in D.
  destruct (downtimed_free _ _ _ _ A B D) as (n1 & -> & D1). destruct (IH _ _ F' D1) as (n2 & -> & D2). exists n2. auto.
Qed.

Lemma run_supported extra b b' slog tlog tlog' r :
  built b -> built b' -> b_autos b = false -> b_ignore_trailing b = false -> same_settings b b' -> (forall t, In t (b_targets b') -> In t (b_targets b)) ->
  sequence_log b = Ok slog -> timeds_log b = Ok tlog -> sequence_log b' = Ok slog -> timeds_log b' = Ok tlog' ->
  Forall2 like tlog' (filter (kept_played extra) tlog) -> Forall (bare extra) (filter (fun p => negb (kept_played extra p)) tlog) ->
  get_skill_timing b = Ok r -> exists r' more, get_skill_timing b' = Ok r' /\ Permutation (timeline r) (more ++ timeline r')
    /\ Forall (fun e => extra (sk_name (ev_skill e)) = true /\ support (ev_skill e)) more.
Proof.
  intros B B' Au Tr (E1 & E2 & E3 & E4 & E5 & E6 & E7 & E8 & E9) Tg S T S' T' Lk Br H.
  pose proof (reachable_dots _ (built_reachable _ B)) as Dk. pose proof (reachable_dots _ (built_reachable _ B')) as Dk'.
  destruct (built_fresh b B) as (Bd & _). destruct (built_fresh b' B') as (Bd' & _).
  assert (Au' : b_autos b' = false) by congruence. assert (Tr' : b_ignore_trailing b' = false) by congruence.
  destruct (likes _ _ Lk) as (Le & Ld). destruct (bare_entries extra _ Br) as (Pe & Pd). rewrite Le in Pe. rewrite Ld in Pd.
  set (ex := filter (fun p => negb (kept_played extra p)) tlog) in *.
  assert (Ed : flat_map press_dots (slog ++ tlog) = flat_map press_dots (slog ++ tlog')) by (rewrite !flat_map_app, Pd; reflexivity).
  assert (Ee : Permutation (entries_of b (slog ++ tlog)) (map main_entry ex ++ entries_of b' (slog ++ tlog'))).
  { unfold entries_of. rewrite E3, Bd', <- Bd, <- Ed. rewrite !(flat_map_app press_entries), Pe, <- !app_assoc, !app_assoc. do 2 apply Permutation_app_tail. apply Permutation_app_comm. }
  pose proof (run_known b r slog tlog Dk Au Tr S T H) as K.
  destruct (run_exists b' slog tlog' Dk' Au' Tr' S' T') as (r' & H').
  { intros c Hc. apply K. eapply Permutation_in; [symmetry; exact Ee | apply in_or_app; right; exact Hc]. }
  exists r'. apply run_logs in H; [|exact Dk]. pose proof H' as H0. apply run_logs in H'; [|exact Dk'].
  destruct H as (s1 & t1 & q2 & autos & d & X). cbv zeta in X. destruct H' as (s2 & t2 & q2' & autos' & d' & X'). cbv zeta in X'.
  destruct X as ((A1 & A2) & P & _ & _ & Na & M & (evs & Dt & Pm) & _). destruct X' as ((A1' & A2') & P' & _ & _ & Na' & M' & (evs' & Dt' & Pm') & _).
  rewrite S in A1. injection A1 as <-. rewrite T in A2. injection A2 as <-. rewrite S' in A1'. injection A1' as <-. rewrite T' in A2'. injection A2' as <-.
  rewrite (Na Au), Tr, app_nil_r in *. rewrite (Na' Au'), Tr', app_nil_r in *.
  fold (entries_of b (slog ++ tlog)) in M, Dt. fold (entries_of b' (slog ++ tlog')) in M', Dt'.
  assert (Nd : Forall (fun x => (forall c, ~ damages x c) /\ ev_targets x <> []) (map entry (map main_entry ex))).
  { apply Forall_map, Forall_map. eapply Forall_impl; [|exact Br]. intros p (_ & (Su & _) & _ & Pt). split; [|exact Pt].
    intros c (spec & G & _). cbn in G. destruct (Su (pl_modifier p)) as (G' & _). congruence. }
  pose proof (Permutation_map entry Ee) as Ee'. rewrite map_app in Ee'.
  assert (d' = d) as ->.
  { eapply moves_fun; [exact M'|]. rewrite E6. eapply moves_lesser; [|eapply moves_perm; [exact Ee' | exact M]]. eapply Forall_impl; [|exact Nd]. intros x Y. exact (proj1 Y). }
  pose proof (Permutation_map (earlier d) Ee') as Ep. rewrite map_app in Ep.
  destruct (downtimed_perm _ _ _ Ep _ Dt) as (n & Dn & Pn). apply downtimed_frees in Dn as (n' & -> & Dn); [|apply Forall_map; exact Nd].
  exists (map (earlier d) (map entry (map main_entry ex))). split; [exact H0|]. split.
  - rewrite Pm, Pn. apply Permutation_app_head.
    assert (n' = evs') as ->; [|symmetry; exact Pm'].
    eapply downtimed_fun; [|exact Dt']. eapply downtimed_ext; [|exact Dn]. intros e t He Ht.
    apply in_map_iff in He as (e0 & <- & He). apply in_map_iff in He as (c & <- & Hc). cbn [earlier ev_targets] in Ht. rewrite entry_targets in Ht.
    assert (It : In t (b_targets b')).
    { unfold entries_of in Hc. apply in_app_or in Hc as [Hc|Hc].
      - apply in_flat_map in Hc as (p' & Hp & Hc). eapply played_targets; [exact B' | exact P' | exact Hp|]. eapply press_entry_targets; eassumption.
      - eapply (ticks_targets b'); eassumption. }
    unfold windows_of. rewrite E7. destruct (b_windows b); [|reflexivity].
    destruct (in_dec String.string_dec t (b_targets b')) as [_|Nt]; [|contradiction]. destruct (in_dec String.string_dec t (b_targets b)) as [_|Nt]; [reflexivity|]. destruct Nt. apply Tg, It.
  - apply Forall_map, Forall_map, Forall_map. eapply Forall_impl; [|exact Br]. intros p (X & Su & _). split; assumption.
Qed.

(** ** Where the events of a run come from *)
Lemma added_follow_up fu e l x : In x (add_dot_entry fu e l) -> fst x = fu \/ exists y, In y l /\ fst x = fst y.
Proof.
  induction l as [|[fu' es] l IH]; cbn [add_dot_entry]; [intros [<-|[]]; left; reflexivity|].
  destruct (follow_up_eqb fu fu').
  - intros [<-|I]; right; [exists (fu', es); split; [left|]; reflexivity|exists x; split; [right; exact I|reflexivity]].
  - intros [<-|I]; [right; exists (fu', es); split; [left|]; reflexivity|]. destruct (IH I) as [E|(y & Iy & E)]; [left; exact E|right; exists y; split; [right; exact Iy|exact E]].
Qed.
Lemma recorded_follow_up l : forall d kv x, In kv (fold_left record_dot l d) -> In x (snd kv) ->
  (exists kv0 y, In kv0 d /\ In y (snd kv0) /\ fst x = fst y) \/ exists z, In z l /\ fst x = snd (fst z).
Proof.
  induction l as [|z l IH]; intros d kv x I J; cbn [fold_left] in I; [left; exists kv, x; auto|].
  destruct (IH _ _ _ I J) as [(kv0 & y & I0 & J0 & E)|(z' & Iz & E)]; [|right; exists z'; split; [right; exact Iz|exact E]].
  destruct z as [[tg fu] e]. cbn [record_dot] in I0. unfold add_dot_target in I0. destruct kv0 as [k0 v0]. apply dset_in in I0 as [[= -> ->]|I0]; [|left; exists (k0, v0), y; auto].
  cbn [snd] in J0. apply added_follow_up in J0 as [E'|(y' & Iy & E')]; [right; exists (tg, fu, e); split; [left; reflexivity|cbn; congruence]|].
  destruct (dget tg d) as [lv|] eqn:G; [|destruct Iy]. left. exists (tg, lv), y'. split; [exact (dget_in _ _ _ G)|]. split; [exact Iy|congruence].
Qed.
Lemma tick_skill fu target ticks : forall k c, In c (tick_entries fu target k ticks) -> ad_skill c = fu_skill fu.
Proof. induction ticks as [|[e z] l IH]; intros k c H; [destruct H|]. destruct H as [<-|H]; [reflexivity | eapply IH, H]. Qed.
Lemma entry_part b slog tlog last c : built b -> rotation_played b slog tlog -> In c (flat_map press_entries (slog ++ tlog) ++ all_dot_calls (b_snap_dots b) last (fold_left record_dot (flat_map press_dots (slog ++ tlog)) (b_dots b)))%list ->
  exists s, In s (skills_of b) /\ part_of (ad_skill c) s.
Proof.
  intros B P I. assert (Fu : forall p fu, In p (slog ++ tlog) -> In fu (pl_follow_ups p) -> exists s, In s (skills_of b) /\ part_of (fu_skill fu) s).
  { intros p fu Ip If. exists (pl_skill p). split; [eapply played_skill; eassumption|].
    assert (W : well_played (b_stats b) p) by (destruct P as (_ & _ & _ & W & _); rewrite Forall_forall in W; apply W, Ip). destruct W as (_ & _ & _ & W & _).
    econstructor; [exact (tspec_declared _ _ _ _ W If)|constructor]. }
  apply in_app_or in I as [I|I].
  - apply in_flat_map in I as (p & Ip & I). destruct I as [<-|I]; [exists (pl_skill p); split; [eapply played_skill; eassumption|constructor]|].
    apply numbered_in in I as (j & fu & If & I). unfold follow_up_entries in I. destruct (fu_dot fu); [destruct I|]. destruct I as [<-|[]]. exact (Fu p fu Ip If).
  - destruct (built_fresh b B) as (Bd & _). rewrite Bd in I. unfold all_dot_calls in I. apply in_flat_map in I as (kv & Ik & I). apply in_flat_map in I as (x & Ix & I).
    unfold dot_calls in I. destruct (fu_dot (fst x)); [|destruct I]. rewrite (tick_skill _ _ _ _ _ I).
    destruct (recorded_follow_up _ _ _ _ Ik Ix) as [(kv0 & y & [] & _)|(dz & Iz & ->)]. apply in_flat_map in Iz as (p & Ip & Iz).
    apply press_dots_targets in Iz as (_ & _ & fu & If & ->). exact (Fu p fu Ip If).
Qed.
Lemma timeline_part b r e : built b -> b_autos b = false -> get_skill_timing b = Ok r -> In e (timeline r) ->
  exists s, In s (skills_of b) /\ part_of (ev_skill e) s.
Proof.
  intros B Au H I. apply run_logs in H; [|apply reachable_dots, built_reachable, B].
  destruct H as (slog & tlog & q2 & autos & d & X). cbv zeta in X. destruct X as (_ & P & _ & _ & Na & _ & (evs & Dt & Pm) & _).
  rewrite (Na Au), app_nil_r in *.
  apply (Permutation_in _ Pm) in I. destruct (DamageRun.downtimed_in _ _ _ _ Dt I) as (e0 & tg & I0 & ->). apply in_map_iff in I0 as (e1 & <- & I1). apply in_map_iff in I1 as (c & <- & Ic).
  cbn. exact (entry_part _ _ _ _ _ B P Ic).
Qed.

(** ** The calls *)
Definition spared (extra : string -> bool) (b0 : builder) (i : instr) : bool :=
  match i with
  | PressAt _ c => match get_skill (b_library b0) (c_name c) (match c_job c with Some j => j | None => st_job (b_stats b0) end) with
                   | Ok s => negb (extra (sk_name s)) | Err _ => true end
  | NextPress _ _ => true
  end.
Lemma spared_timed extra b0 l : flat_map (timeds_of b0) (filter (spared extra b0) l) = filter (kept_timed extra) (flat_map (timeds_of b0) l).
Proof.
  induction l as [|i l IH]; [reflexivity|]. cbn [filter flat_map]. rewrite filter_app, <- IH. clear IH. set (rest := filter (spared extra b0) l).
  destruct i as [c n|t c]; [reflexivity|]. destruct (skill_for b0 c) as [s|e] eqn:G.
  - assert (E : exists x, timeds_of b0 (PressAt t c) = [x] /\ tm_skill x = s).
    { unfold timeds_of. cbn [instr_call]. rewrite G. eexists. split; reflexivity. }
    destruct E as (x & E & Ex). unfold spared. unfold skill_for, job_or_default in G. rewrite G.
    rewrite E. cbn [filter]. unfold kept_timed. rewrite Ex. destruct (negb (extra (sk_name s))); [|reflexivity]. cbn [flat_map]. rewrite E. reflexivity.
  - assert (E : timeds_of b0 (PressAt t c) = []) by (unfold timeds_of; cbn [instr_call]; rewrite G; reflexivity).
    unfold spared. unfold skill_for, job_or_default in G. rewrite G. rewrite E. cbn [flat_map filter]. rewrite E. reflexivity.
Qed.
Lemma spared_next extra b0 l : flat_map (seqs_of b0) (filter (spared extra b0) l) = flat_map (seqs_of b0) l.
Proof.
  induction l as [|i l IH]; [reflexivity|]. cbn [filter flat_map]. destruct i as [c n|t c]; cbn [spared].
  - cbn [flat_map]. rewrite IH. reflexivity.
  - change (seqs_of b0 (PressAt t c)) with (@nil seq_item). cbn [app].
    destruct (get_skill _ _ _) as [s|e]; [destruct (negb (extra (sk_name s)))|]; cbn [flat_map]; exact IH.
Qed.
Lemma filter_kept_perm {A} (f : A -> bool) l l' : Permutation l l' -> Permutation (filter f l) (filter f l').
Proof.
  induction 1 as [|x l l' P IH|x y l|l l1 l2 P1 IH1 P2 IH2]; cbn.
  - constructor.
  - destruct (f x); [apply perm_skip|]; exact IH.
  - destruct (f x), (f y); try apply Permutation_refl. apply perm_swap.
  - etransitivity; eassumption.
Qed.
Lemma filter_sorted {A} (R : A -> A -> Prop) f l : StronglySorted R l -> StronglySorted R (filter f l).
Proof.
  induction 1 as [|x l S IH F]; cbn; [constructor|]. destruct (f x); [|exact IH]. constructor; [exact IH|]. apply Forall_forall. intros y I. apply filter_In in I as (I & _). rewrite Forall_forall in F. apply F, I.
Qed.
Lemma filter_map_nodup {A B} (g : A -> B) f l : NoDup (map g l) -> NoDup (map g (filter f l)).
Proof.
  induction l as [|x l IH]; cbn; [auto|]. intros N. inversion N as [|? ? N1 N2]; subst. destruct (f x); [|auto]. cbn. constructor; [|auto].
  intros I. apply N1. apply in_map_iff in I as (y & E & I). apply filter_In in I as (I & _). rewrite <- E. apply in_map, I.
Qed.

Theorem timed_supported extra st lib snap start w target b0 l b r :
  rb_init st lib snap false false start w target = Ok b0 -> follow b0 l = Ok b -> with_support extra b -> distinct_times b ->
  get_skill_timing b = Ok r -> Forall orderly (q_heap (b_queue r)) ->
  exists b' r', follow b0 (unsupported extra b0 l) = Ok b' /\ get_skill_timing b' = Ok r'
    /\ supported extra (q_heap (b_queue r')) (q_heap (b_queue r)) /\ indifferent extra lib st (q_heap (b_queue r'))
    /\ Forall orderly (q_heap (b_queue r')) /\ q_inv (b_queue r) /\ q_inv (b_queue r').
Proof.
  intros B0 F ((W1 & W2 & W3a) & (W3b & W5) & W4) D H O. unfold unranking in W4.
  assert (W3 : forall s p, In s (SpecRun.skills_of b) -> extra (sk_name s) = false -> part_of p s ->
    extra (sk_name p) = false /\ forall e, In e (SpecGame.effects_of p) -> (0 <= damage_mult e)%Q /\ forall n, extra n = true -> uses_apart n e).
  { intros s p I E P. destruct (W3a s p I E P) as (N & M). split; [exact N|]. intros e Ie. split; [exact (M e Ie)|]. intros n En. exact (W3b s p e n I E P Ie En). }
  clear W3a W3b.
  pose proof (built_init _ _ _ _ _ _ _ _ _ B0) as Bt0. pose proof F as F0. apply follow_spec in F as (K & ->).
  change (unsupported extra b0 l) with (filter (spared extra b0) l). set (l' := filter (spared extra b0) l).
  assert (F' : follow b0 l' = Ok (left_by b0 l')).
  { apply follow_spec. split; [|reflexivity]. apply Forall_forall. intros i I. apply filter_In in I as (I & _). rewrite Forall_forall in K. apply K, I. }
  pose proof (follow_built _ _ _ Bt0 F0) as B. pose proof (follow_built _ _ _ Bt0 F') as B'.
  set (b := left_by b0 l) in *. set (b' := left_by b0 l') in *.
  unfold rb_init in B0. apply bind_ok in B0 as (prio & Pr & B0). injection B0 as B0.
  assert (Se : same_settings b b') by (repeat split).
  assert (Au : b_autos b = false) by (subst b; rewrite <- B0; reflexivity). assert (Tr : b_ignore_trailing b = false) by (subst b; rewrite <- B0; reflexivity).
  assert (Au' : b_autos b' = false) by (subst b'; rewrite <- B0; reflexivity). assert (Tr' : b_ignore_trailing b' = false) by (subst b'; rewrite <- B0; reflexivity).
  assert (Tg : forall t, In t (b_targets b') -> In t (b_targets b)).
  { intros t. cbn [b_targets b b' left_by]. change (fold_left (fun acc x => sadd x acc) ?a ?b) with (set_union b a). rewrite !set_union_in.
    intros [I|I]; [left; exact I|right]. apply in_flat_map in I as (i & Ii & I). apply filter_In in Ii as (Ii & _). apply in_flat_map. exists i. auto. }
  assert (Es : b_sequence b' = b_sequence b) by (cbn [b_sequence b b' left_by]; unfold l'; rewrite spared_next; reflexivity).
  assert (Et : b_timed b' = filter (kept_timed extra) (b_timed b)).
  { cbn [b_timed b b' left_by]. unfold l'. rewrite spared_timed, filter_app. f_equal. rewrite <- B0. reflexivity. }
  pose proof (run_logs b r H (reachable_dots _ (built_reachable _ B))) as (slog & tlog & q2 & au & d & X). cbv zeta in X. destruct X as ((S & T) & _). clear q2 au d.
  assert (S' : sequence_log b' = Ok slog) by (rewrite <- S; unfold sequence_log; rewrite Es; reflexivity).
  pose proof T as T0. unfold timeds_log in T. apply bind_ok in T as (tk & Tk & T). apply bind_ok in T as (o & Eo & T). apply bind_ok in T as ([lg rr] & El & T). injection T as ->.
  pose proof Eo as Eo0. apply timed_order_spec in Eo as (Po & So).
  assert (So' : StronglySorted (fun x y => tm_time x < tm_time y) o) by (apply sorted_le_lt; [eapply Permutation_NoDup; [apply Permutation_map, Po|exact D]|exact So]).
  assert (Eo' : timed_order (b_timed b') = Ok (filter (kept_timed extra) o)).
  { rewrite Et, (same_order_of _ (filter (kept_timed extra) o)); [|apply filter_kept_perm, Po|apply filter_map_nodup, D]. apply order_of_sorted, filter_sorted, So'. }
  assert (Kx : forall x, In x o -> if extra (sk_name (tm_skill x)) then support (tm_skill x) else plain extra (tm_skill x)).
  { intros x Ix. assert (Is : In (tm_skill x) (SpecRun.skills_of b)) by (apply in_or_app; right; apply in_map; apply (Permutation_in _ (Permutation_sym Po)), Ix).
    destruct (extra (sk_name (tm_skill x))) eqn:Ex; [exact (W2 _ Is Ex)|]. intros p Pp. exact (W3 _ p Is Ex Pp). }
  assert (Lo : exists T1, Forall (fun x => T1 <= tm_time x) o).
  { clear - So'. destruct So' as [|x o S F]; [exists 0; constructor|]. exists (tm_time x). constructor; [lia|]. eapply Forall_impl; [|exact F]. cbn. intros. lia. }
  destruct Lo as (T1 & Lo).
  assert (M0 : tk_ahead extra T1 tk tk).
  { unfold new_trackers in Tk. apply bind_ok in Tk as (rs & Nr & N). apply bind_ok in N as (br & Nb & N). injection N as <-.
    split; [|split; [reflexivity|split; [reflexivity|]]].
    - apply ahead_here. split; [reflexivity|]. split; [|split; [reflexivity|split; [reflexivity|split; [apply good_nil|intros x; apply good_nil]]]].
      intros n. apply (W4 (b_priority b)). subst b. rewrite <- B0. exact Pr.
    - intros n Xn k cfg ll Ik In. cbn in Ik. apply in_map_iff in Ik as ([k' cfg'] & Ek & Ik). injection Ek as <- <- <-. pose proof (W5 rs k' cfg' n Nr Ik In). congruence. }
  destruct (less_timeds extra (b_stats b) o T1 tk tk tlog rr M0 Lo) as (tlog' & r1 & El' & Lk & Br); [|exact Kx|exact El|].
  { clear - So'. induction So' as [|x o S IH F]; constructor; [exact IH|]. eapply Forall_impl; [|exact F]. cbn. intros. lia. }
  assert (T' : timeds_log b' = Ok tlog').
  { unfold timeds_log. change (new_trackers (b_library b') (st_job (b_stats b')) (b_priority b')) with (new_trackers (b_library b) (st_job (b_stats b)) (b_priority b)).
    rewrite Tk. cbn [bind]. rewrite Eo'. cbn [bind]. change (b_stats b') with (b_stats b). rewrite El'. reflexivity. }
  destruct (run_supported extra b b' slog tlog tlog' r B B' Au Tr Se Tg S T0 S' T' Lk Br H) as (r' & more & H' & P & Fm).
  exists b', r'. split; [exact F'|]. split; [exact H'|].
  assert (Pl : forall e, In e (q_heap (b_queue r')) -> extra (sk_name (ev_skill e)) = false /\ forall sp, In sp (effects_of (ev_skill e)) -> (0 <= damage_mult sp)%Q /\ forall n, extra n = true -> uses_apart n sp).
  { intros e I. destruct (timeline_part b' r' (anon e) B' Au' H' (in_map anon _ _ I)) as (s & Is & Pp). cbn in Pp.
    assert (Is' : In s (SpecRun.skills_of b) /\ extra (sk_name s) = false).
    { unfold SpecRun.skills_of in Is. rewrite Es, Et in Is. apply in_app_or in Is as [Is|Is].
      - split; [apply in_or_app; left; exact Is|]. apply in_map_iff in Is as (x & <- & Ix). exact (W1 x Ix).
      - apply in_map_iff in Is as (x & <- & Ix). apply filter_In in Ix as (Ix & Kp). split; [apply in_or_app; right; apply in_map, Ix|]. unfold kept_timed in Kp. apply negb_true_iff in Kp. exact Kp. }
    exact (W3 s _ (proj1 Is') (proj2 Is') Pp). }
  assert (Oa : Forall orderly (map anon (q_heap (b_queue r)))) by (apply Forall_map; exact O).
  unfold timeline in P. pose proof (Permutation_Forall P Oa) as Op. apply Forall_app in Op as (Om & Or).
  assert (Eb : b_library b = lib /\ b_stats b = st) by (subst b; rewrite <- B0; split; reflexivity). destruct Eb as (Eb1 & Eb2). rewrite Eb1, Eb2 in W4, W5.
  split; [|split; [|split; [|split]]].
  - exists more. split; [|split].
    + rewrite P, map_app. apply Permutation_app; [|reflexivity]. 
      assert (Ea : map anon more = more); [|rewrite Ea; reflexivity].
      rewrite <- (map_id more) at 2. apply map_ext_in. intros e Ie. assert (Ip : In e (map anon (q_heap (b_queue r)))) by (apply (Permutation_in _ (Permutation_sym P)), in_or_app; left; exact Ie).
      apply in_map_iff in Ip as (e0 & <- & _). reflexivity.
    + rewrite Forall_forall in *. intros e Ie. destruct (Fm e Ie) as (X1 & X2). split; [exact X1|]. split; [exact X2|exact (Om e Ie)].
    + apply Forall_forall. intros e Ie. exact (proj1 (Pl e Ie)).
  - split; [|split].
    + intros e sp Ie Is. exact (proj2 (Pl e Ie) sp Is).
    + exact W4.
    + exact W5.
  - rewrite Forall_map in Or. exact Or.
  - exact (proj1 (DamageRun.timeline_prepared _ _ (built_reachable _ B) H)).
  - exact (proj1 (DamageRun.timeline_prepared _ _ (built_reachable _ B') H')).
Qed.
