(** * What a run shows, in one statement each (C12, C14, C16, C17, C22, C23) *)

From Coq Require Import ZArith QArith List String Bool Permutation Sorted Lia.
From Verif Require Import Base BaseFacts Float Types Lookup StatusEffect Channeling Stats Library Events Rotation SpecQueue SpecTrackers SpecPlay
  SpecTimeline SpecDots SpecAuto AutoFacts SpecRun RunProps ApiFacts DotProps AutoProps.
Import ListNotations.
Open Scope Z_scope.

Lemma run_gaps b b' :
  reachable b -> get_skill_timing b = Ok b' ->
  exists slog tlog d, rotation_played b slog tlog /\ shows_presses b b' (slog ++ tlog) d
    /\ (b_fight_start b <> None -> d = 0)
    /\ forall p q, consecutive_gcds slog p q ->
         exists spec r, pl_timing p = Some spec /\ is_recast_time (b_stats b) spec (pl_buffs p) (pl_debuffs p) r
           /\ pl_time p + r <= pl_time q.
Proof.
  intros R H. destruct (presses_shown b b' R H) as (slog & tlog & d & P & S & D). exists slog, tlog, d.
  split; [exact P|]. split; [exact S|]. split; [exact D|]. intros p q C. exact (gcd_gap b slog tlog p q P C).
Qed.

Lemma run_times b b' :
  reachable b -> get_skill_timing b = Ok b' ->
  exists slog tlog extra d, rotation_played b slog tlog
    /\ shows_timeline b b' (flat_map press_entries (slog ++ tlog) ++ extra) d
    /\ (b_fight_start b <> None -> d = 0)
    /\ forall p, In p (slog ++ tlog) ->
         0 <= pl_cast p
         /\ pl_snapshot p = pl_time p + Z.max 0 (pl_cast p - 500)
         /\ (forall spec, pl_timing p = Some spec -> sm_ignore_application_delay (pl_modifier p) = false ->
              pl_application p = pl_time p + pl_cast p
                + (if 0 <? pl_cast p then Z.max 0 (application_delay spec - 500) else application_delay spec))
         /\ (sm_ignore_application_delay (pl_modifier p) = true -> pl_application p = pl_time p + pl_cast p)
         /\ (sm_ignore_cast_times (pl_modifier p) = true -> pl_cast p = 0 /\ pl_snapshot p = pl_time p)
         /\ (nonneg_delays b -> pl_time p <= pl_snapshot p <= pl_application p).
Proof.
  intros R H. destruct (timeline_shown b b' R H) as (slog & tlog & extra & d & P & S & D). exists slog, tlog, extra, d.
  split; [exact P|]. split; [exact S|]. split; [exact D|]. intros p I. exact (press_times b slog tlog p P I).
Qed.

(** ** Ticks *)

Lemma Forall2_weaken {A B} (P R : A -> B -> Prop) l l' : (forall a b, P a b -> R a b) -> Forall2 P l l' -> Forall2 R l l'.
Proof. intros H. induction 1; constructor; auto. Qed.

Section Ticks.
  Variables (first : Z -> Z) (last : option Z) (l : list dot_application).

  Definition labels_of (target : string) (fu : follow_up) (h : list dot_entry) (ticks : list (dot_entry * Z)) (xs : list tick_label) : Prop :=
    Forall2 (fun et x => tl_target x = target /\ tl_effect x = fu /\ tl_time x = snd et /\ nth_error h (tl_index x) = Some (fst et)) ticks xs.

  Lemma choose_labels target fu dur h ticks :
    (forall e t, In (e, t) ticks -> exists i, nth_error h i = Some e /\ ticks_at first dur h i t) ->
    exists xs, labels_of target fu h ticks xs
      /\ forall x, In x xs -> ticks_at first dur h (tl_index x) (tl_time x).
  Proof.
    induction ticks as [|[e t] ticks IH]; intros H.
    - exists []. split; [constructor|intros x []].
    - destruct IH as (xs & L & T); [intros; apply H; right; assumption|].
      destruct (H e t (or_introl eq_refl)) as (i & N & A).
      exists (mkLabel target fu i t :: xs). split; [constructor; [cbn; auto|exact L]|].
      intros x [<-|I]; [exact A|apply T, I].
  Qed.
  Lemma label_entries target fu h : forall ticks xs n, h = history target fu l -> labels_of target fu h ticks xs ->
    Forall2 (is_tick l) xs (tick_entries fu target n ticks).
  Proof.
    induction ticks as [|[e t] ticks IH]; intros xs n E L; inversion L as [|? x ? xs' (A1 & A2 & A3 & A4) L']; subst; [constructor|].
    cbn [tick_entries]. constructor; [|apply IH; [reflexivity|exact L']]. exists n, e. cbn [fst snd] in *.
    destruct x as [tg f i t']. cbn in *. subst. split; [exact A4|reflexivity].
  Qed.
  Lemma label_times target fu h ticks xs :
    labels_of target fu h ticks xs -> StronglySorted (fun x y => snd x < snd y) ticks ->
    StronglySorted (fun x y => tl_time x < tl_time y) xs.
  Proof.
    induction 1 as [|et x ticks xs (A1 & A2 & A3 & A4) L IH]; intros S; [constructor|]. inversion S as [|? ? S' F]; subst.
    constructor; [apply IH, S'|]. clear - L F A3. rewrite A3. induction L as [|et' x' ticks xs (B1 & B2 & B3 & B4) L IH]; [constructor|].
    inversion F; subst. constructor; [lia|auto].
  Qed.
  Lemma label_kind target fu h ticks xs x : labels_of target fu h ticks xs -> In x xs -> tl_target x = target /\ tl_effect x = fu.
  Proof. induction 1 as [|et y ticks xs (A1 & A2 & A3 & A4) L IH]; intros I; [destruct I|]. destruct I as [<-|I]; auto. Qed.

  Lemma label_for target fu h ticks xs et : labels_of target fu h ticks xs -> In et ticks ->
    exists x, In x xs /\ tl_target x = target /\ tl_effect x = fu /\ tl_time x = snd et.
  Proof.
    induction 1 as [|et' y ticks xs (A1 & A2 & A3 & A4) L IH]; intros I; [destruct I|].
    destruct I as [->|I]; [exists y; cbn; auto|]. destruct (IH I) as (x & J & Q). exists x. cbn. auto.
  Qed.

  Lemma all_labels ks cs : all_ticks first last l ks cs -> NoDup ks ->
    exists xs, Forall2 (is_tick l) xs cs
      /\ (forall x, In x xs -> In (tl_target x, tl_effect x) ks
            /\ exists dur, fu_dot (tl_effect x) = Some dur
                 /\ ticks_at first dur (history (tl_target x) (tl_effect x) l) (tl_index x) (tl_time x))
      /\ no_double xs
      /\ (forall target fu dur i e t, In (target, fu) ks -> fu_dot fu = Some dur -> nth_error (history target fu l) i = Some e ->
            ticks_at first dur (history target fu l) i t -> ~ trailing last t ->
            exists x, In x xs /\ tl_target x = target /\ tl_effect x = fu /\ tl_time x = t).
  Proof.
    induction 1 as [|target fu dur ticks ks cs D (So & IT) A IH]; intros N.
    - exists []. split; [constructor|]. split; [intros x []|]. split; [constructor|]. intros target fu dur i e t [].
    - inversion N as [|? ? NI N']; subst. destruct (IH N') as (xs & F & P & Dd & Cm).
      destruct (choose_labels target fu dur (history target fu l) ticks) as (ys & L & T).
      { intros e t I. apply IT in I as [I _]. exact I. }
      exists (ys ++ xs)%list. split; [|split; [|split]].
      + apply Forall2_app; [|exact F]. eapply label_entries; [reflexivity|exact L].
      + intros x I. apply in_app_or in I as [I|I].
        * destruct (label_kind _ _ _ _ _ _ L I) as [-> ->]. split; [left; reflexivity|]. exists dur. split; [exact D|]. apply T, I.
        * destruct (P x I) as [Q1 Q2]. split; [right; exact Q1|exact Q2].
      + assert (S : StronglySorted (fun x y => tl_time x < tl_time y) ys) by (eapply label_times; eassumption).
        unfold no_double in *. clear - S Dd L NI P.
        assert (K : forall x, In x ys -> tl_target x = target /\ tl_effect x = fu) by (intros x; apply (label_kind _ _ _ _ _ _ L)).
        clear L. induction ys as [|y ys IH]; [exact Dd|]. inversion S as [|? ? S' F]; subst. cbn [app].
        constructor; [|apply IH; [exact S'|intros x I; apply K; right; exact I]].
        apply Forall_app. split.
        * eapply Forall_impl; [|exact F]. intros z Hz _ _. cbn in Hz. lia.
        * apply Forall_forall. intros z I E1 E2. exfalso. destruct (K y (or_introl eq_refl)) as [K1 K2]. destruct (P z I) as [Q _].
          apply NI. rewrite <- K1, <- K2, E1, E2. exact Q.
      + intros tg f du i e t [E|I] Du Ne Ti Tr.
        * injection E as <- <-. rewrite D in Du. injection Du as <-.
          assert (J : In (e, t) ticks) by (apply IT; split; [exists i; auto|exact Tr]).
          destruct (label_for _ _ _ _ _ _ L J) as (x & I & Q). exists x. split; [apply in_or_app; left; exact I|exact Q].
        * destruct (Cm tg f du i e t I Du Ne Ti Tr) as (x & J & Q). exists x. split; [apply in_or_app; right; exact J|exact Q].
  Qed.
End Ticks.

Lemma history_in target fu l i e : nth_error (history target fu l) i = Some e -> exists x, In x l /\ snd x = e.
Proof.
  intros H. apply nth_error_In in H. unfold history in H. apply in_map_iff in H as (x & E & I). apply filter_In in I as [I _]. eauto.
Qed.
Lemma first_forward snap first l target fu i e :
  first_ticks snap first -> whole_offset snap -> small_times snap l -> nth_error (history target fu l) i = Some e ->
  app_time e <= first (app_time e) < app_time e + 3000.
Proof.
  intros F W S N. destruct W as [->|(s0 & o & -> & Ho & Bo)]; [cbn in F; rewrite F; lia|].
  destruct S as [S|S]; [discriminate S|]. destruct (history_in _ _ _ _ _ N) as (x & I & <-). destruct (F o Ho Bo _ (S x I)) as [A _]. exact A.
Qed.

Lemma run_ticks b b' :
  built b -> get_skill_timing b = Ok b' ->
  exists slog tlog ticks autos d,
    rotation_played b slog tlog
    /\ shows_timeline b b' (flat_map press_entries (slog ++ tlog) ++ ticks ++ autos) d
    /\ (b_fight_start b <> None -> d = 0)
    /\ (b_autos b = false -> autos = [])
    /\ let l := flat_map press_dots (slog ++ tlog) in
       (distinguishable l -> small_times (b_snap_dots b) l ->
        exists xs, Forall2 (shows_tick l) xs ticks /\ no_double xs
          /\ (forall x, In x xs -> tick_in_time (b_snap_dots b) l x)
          /\ (forall x y, In x xs -> In y xs -> in_turn (b_snap_dots b) l x y)).
Proof.
  intros B H. destruct (dots_shown b b' B H) as (slog & tlog & ticks & autos & d & last & first & Pl & Sh & D & NA & F & _ & _ & T).
  exists slog, tlog, ticks, autos, d. repeat (split; [assumption|]). cbv zeta. set (l := flat_map press_dots (slog ++ tlog)) in *.
  intros Di Sm. destruct (T Di Sm) as (ks & (ND & KS) & A). destruct (all_labels first last l ks ticks A ND) as (xs & FT & P & Dd & Cm).
  exists xs. split; [|split; [exact Dd|split]].
  - eapply Forall2_weaken; [|exact FT]. intros x c (n & e & C & ->). exists e. split; [exact C|].
    destruct (tick_event (tl_effect x) (tl_target x) n e (tl_time x)) as (Q1 & Q2 & Q3 & Q4 & Q5). auto.
  - intros x I. destruct (P x I) as (_ & dur & Du & (e & N & (k & K & Et) & Lt & _)). exists dur, e.
    split; [exact Du|]. split; [exact N|]. split; [exact Lt|]. split.
    + intros W. pose proof (first_forward _ _ _ _ _ _ _ F W Sm N). lia.
    + intros E. rewrite E in F. cbn in F. exists k. rewrite (F (app_time e)) in Et. auto.
  - intros x y I J Tg Ef Ne. destruct (P x I) as (_ & dx & Dx & (e & N & (k & K & Et) & Lt & Su)).
    destruct (P y J) as (_ & dy & Dy & (e' & N' & (k' & K' & Et') & Lt' & Su')).
    assert (N2 := N). assert (N2' := N'). rewrite Tg, Ef in N. rewrite <- Tg, <- Ef in N'.
    destruct (superseded_total (tl_index x) (tl_index y) (app_time e) (app_time e') Ne) as [S|S].
    + left. exists e'. split; [exact N2'|]. split; [exact (Su _ _ N' S)|]. intros W.
      pose proof (first_forward _ _ _ _ _ _ _ F W Sm N2'). lia.
    + right. exists e. split; [exact N2|]. split; [exact (Su' _ _ N S)|]. intros W.
      pose proof (first_forward _ _ _ _ _ _ _ F W Sm N2). lia.
Qed.

Lemma last_such {A} (P : A -> Prop) (dec : forall x, P x \/ ~ P x) l : (exists x, In x l /\ P x) ->
  exists i x, nth_error l i = Some x /\ P x /\ forall j y, nth_error l j = Some y -> P y -> (j <= i)%nat.
Proof.
  induction l as [|a l IH]; intros (x & I & Px); [destruct I|].
  assert (D : (exists y, In y l /\ P y) \/ forall y, In y l -> ~ P y).
  { clear - dec. induction l as [|z l IH]; [right; intros y []|]. destruct (dec z) as [Pz|Nz]; [left; exists z; cbn; auto|].
    destruct IH as [(y & I & Py)|N]; [left; exists y; cbn; auto|]. right. intros y [<-|I]; auto. }
  destruct D as [D|N].
  - destruct (IH D) as (i & y & Ny & Py & La). exists (S i), y. split; [exact Ny|]. split; [exact Py|].
    intros [|j] z Nz Pz; [lia|]. specialize (La j z Nz Pz). lia.
  - destruct I as [->|I]; [|destruct (N x I Px)]. exists 0%nat, x. split; [reflexivity|]. split; [exact Px|].
    intros [|j] z Nz Pz; [lia|]. cbn in Nz. destruct (N z (nth_error_In _ _ Nz) Pz).
Qed.

Lemma run_aligned b b' s0 o :
  built b -> get_skill_timing b = Ok b' ->
  b_snap_dots b = Some s0 -> (fmul 1000 s0 == inject_Z o)%Q -> Z.abs o <= 2 ^ 51 ->
  exists slog tlog ticks autos d,
    rotation_played b slog tlog
    /\ shows_timeline b b' (flat_map press_entries (slog ++ tlog) ++ ticks ++ autos) d
    /\ (b_fight_start b <> None -> d = 0)
    /\ (b_autos b = false -> autos = [])
    /\ let l := flat_map press_dots (slog ++ tlog) in
       (distinguishable l -> small_times (b_snap_dots b) l ->
        exists xs, Forall2 (shows_tick l) xs ticks
          /\ (forall x, In x xs -> (3000 | tl_time x - o) /\ exists e, cause l x = Some e /\ app_time e <= tl_time x)
          (* an application that nothing supersedes ticks within 3 s if it lasts that long *)
          /\ (b_ignore_trailing b = false ->
              forall target fu dur e, In (target, fu, e) l -> fu_dot fu = Some dur -> 3000 <= dur ->
              (forall e', In (target, fu, e') l -> app_time e' <= app_time e \/ app_time e + 3000 <= app_time e') ->
              exists x, In x xs /\ tl_target x = target /\ tl_effect x = fu /\ app_time e <= tl_time x < app_time e + 3000)).
Proof.
  intros B H Sn Ho Bo. destruct (dots_shown b b' B H) as (slog & tlog & ticks & autos & d & last & first & Pl & Sh & D & NA & F & L0 & _ & T).
  exists slog, tlog, ticks, autos, d. repeat (split; [assumption|]). cbv zeta. set (l := flat_map press_dots (slog ++ tlog)) in *.
  intros Di Sm. destruct (T Di Sm) as (ks & (ND & KS) & A). destruct (all_labels first last l ks ticks A ND) as (xs & FT & P & Dd & Cm).
  exists xs. split; [|split].
  - eapply Forall2_weaken; [|exact FT]. intros x c (n & e & C & ->). exists e. split; [exact C|].
    destruct (tick_event (tl_effect x) (tl_target x) n e (tl_time x)) as (Q1 & Q2 & Q3 & Q4 & Q5). auto.
  - intros x I. destruct (P x I) as (_ & dur & Du & Ti). pose proof Ti as (e & N & _). rewrite Sn in F.
    assert (Bs : Z.abs (app_time e) <= 2 ^ 51).
    { destruct Sm as [Sm|Sm]; [congruence|]. destruct (history_in _ _ _ _ _ N) as (z & Iz & <-). apply Sm, Iz. }
    destruct (ticks_aligned s0 o first dur _ _ _ _ F Ho Bo N Bs Ti) as (Q1 & Q2 & _). split; [exact Q1|]. exists e. auto.
  - intros NT target fu dur e I Du D3 Al. specialize (L0 NT).
    assert (Ie : In e (history target fu l)).
    { unfold history. apply in_map_iff. exists (target, fu, e). split; [reflexivity|]. apply filter_In. split; [exact I|]. cbn [fst snd].
      rewrite String.eqb_refl. cbn [andb]. apply (Di _ _ I I). reflexivity. }
    assert (Hh : forall e', In e' (history target fu l) -> app_time e' <= app_time e \/ app_time e + 3000 <= app_time e').
    { intros e' I'. apply Al. unfold history in I'. apply in_map_iff in I' as ([[tg f] e0] & <- & I'). apply filter_In in I' as [I' Q].
      cbn [fst snd] in *. apply andb_true_iff in Q as [Q1 Q2]. apply String.eqb_eq in Q1. subst tg.
      apply (Di _ _ I I') in Q2. cbn [fst snd] in Q2. subst f. exact I'. }
    destruct (last_such (fun e' => app_time e' = app_time e)
                (fun e' => match Z.eq_dec (app_time e') (app_time e) with left E => or_introl E | right E => or_intror E end)
                (history target fu l)) as (i & e2 & N & Eq & La).
    { exists e. auto. }
    rewrite Sn in F.
    assert (Bs : Z.abs (app_time e) <= 2 ^ 51).
    { destruct Sm as [Sm|Sm]; [congruence|]. exact (Sm _ I). }
    destruct (F o Ho Bo _ Bs) as (Fw & _).
    destruct (Cm target fu dur i e2 (first (app_time e))) as (x & Ix & Q1 & Q2 & Q3).
    + apply KS. apply in_map_iff. exists (target, fu, e). auto.
    + exact Du.
    + exact N.
    + exists e2. split; [exact N|]. split; [exists 0; rewrite Eq; lia|]. split; [rewrite Eq; lia|].
      intros j e' N' Su. destruct (Hh e' (nth_error_In _ _ N')) as [Q|Q]; [|lia].
      destruct Su as [Su|[Su Lt]]; [rewrite Eq in Su; lia|]. exfalso. assert (app_time e' = app_time e) by lia.
      specialize (La j e' N' H0). lia.
    + intros (z & Z1 & _). rewrite L0 in Z1. discriminate Z1.
    + exists x. split; [exact Ix|]. split; [exact Q1|]. split; [exact Q2|]. rewrite Q3. exact Fw.
Qed.

(** ** Autos *)

Lemma latest_unique l r r' : latest l r -> latest l r' -> r = r'.
Proof.
  intros H H'. destruct r as [t|], r' as [t'|]; cbn in *; try reflexivity.
  - destruct H as ((e & I & T) & M), H' as ((e' & I' & T') & M'). f_equal.
    specialize (M _ _ I' T'). specialize (M' _ _ I T). lia.
  - subst l. destruct H as ((e & [] & _) & _).
  - subst l. destruct H' as ((e & [] & _) & _).
Qed.

Lemma run_schedule b b' :
  built b -> b_autos b = true -> get_skill_timing b = Ok b' ->
  exists slog tlog ticks au spec hits d first last,
    let log := (slog ++ tlog)%list in
    let delay := application_delay spec in
    let base := map entry (flat_map press_entries log ++ ticks) in
    rotation_played b slog tlog
    /\ auto_skill b au /\ sk_timing au = COne spec
    /\ shows_timeline b b' (flat_map press_entries log ++ ticks ++ map (hit_call au delay) hits) d
    /\ (b_fight_start b <> None -> d = 0)
    /\ earliest_damage base first
    /\ (b_ignore_trailing b = false -> latest base (Some last))
    /\ (b_ignore_trailing b = true -> forall t, latest (map entry (flat_map press_entries log)) (Some t) -> last = t)
    /\ (distinguishable (flat_map press_dots log) -> small_times (b_snap_dots b) (flat_map press_dots log) ->
        exists t, (b_ignore_trailing b = false -> t = None)
          /\ (b_ignore_trailing b = true -> latest (map entry (flat_map press_entries log)) t)
          /\ ticks_delivered (b_snap_dots b) t (flat_map press_dots log) ticks)
    /\ (last <= first + delay -> hits = [])
    /\ (first + delay < last -> exists h l, hits = h :: l /\ hit_time h = first)
    /\ (forall h, In h hits -> hit_time h + delay < last)
    /\ (forall pre h, hits = (pre ++ [h])%list ->
          next_auto b (hit_target h) (hit_time h + hit_gap h) Inf
          \/ exists t', next_auto b (hit_target h) (hit_time h + hit_gap h) (Fin t') /\ last <= t' + delay)
    /\ (forall pre h h' post, hits = (pre ++ h :: h' :: post)%list ->
          next_auto b (hit_target h) (hit_time h + hit_gap h) (Fin (hit_time h'))
          /\ hit_time h + hit_gap h <= hit_time h'
          /\ (~ in_downtime (SpecTimeline.windows_of b (hit_target h)) (hit_time h + hit_gap h) DC_AUTO ->
              (forall ps p, get_no_auto_periods b = Ok ps -> In p ps -> ~ covers p (hit_time h + hit_gap h)) ->
              hit_time h' = hit_time h + hit_gap h))
    /\ (forall pre h post, hits = (pre ++ h :: post)%list ->
          exists buffs debuffs, hit_gap h = hasted_delay (b_stats b) buffs debuffs
            /\ auto_effects b (base ++ map entry (map (hit_call au delay) (pre ++ [h]))) (hit_time h) au buffs debuffs)
    /\ (Forall (fun h => 0 <= hit_gap h) hits ->
        forall h, In h hits -> main_target (map press_stamp log) (hit_time h) (hit_target h)).
Proof.
  intros B A H. destruct (autos_shown b b' B A H) as (slog & tlog & ticks & au & hits & calls & d & last0 & fi & P & S & D & L0 & L1 & Fi & Ti & De).
  pose proof De as (spec & first & last & Au & Sp & Ea & La & Ch & -> & Ma).
  exists slog, tlog, ticks, au, spec, hits, d, first, last. cbv zeta.
  split; [exact P|]. split; [exact Au|]. split; [exact Sp|]. split; [exact S|]. split; [exact D|]. split; [exact Ea|].
  split; [intros N; rewrite (L0 N) in La; exact La|].
  split. { intros N t Lt. specialize (L1 N). apply (latest_unique _ _ _ L1) in Lt. subst last0. exact La. }
  split. { intros Di Sm. destruct (Ti Di Sm) as (ks & K1 & K2). exists last0. split; [exact L0|]. split; [exact L1|]. exists fi, ks. auto. }
  split. { intros Le. destruct (autos_first _ _ _ _ _ _ _ _ Ch) as [(E & _)|(h & l & _ & _ & Q)]; [exact E | clear - Le Q; lia]. }
  split. { intros Lt. destruct (autos_first _ _ _ _ _ _ _ _ Ch) as [(_ & Q)|(h & l & E & Q & _)]; [clear - Lt Q; lia | exists h, l; auto]. }
  split. { intros h I. apply in_split in I as (pre & post & E). apply (autos_each _ _ _ _ _ _ _ _ Ch _ _ _ E). }
  split. { intros pre h E. apply (autos_each _ _ _ _ _ _ _ _ Ch _ _ _ E). }
  split. { intros pre h h' post E. pose proof (autos_each _ _ _ _ _ _ _ _ Ch _ _ _ E) as (_ & _ & N). cbn in N.
    split; [exact N|]. split; [apply next_auto_le in N; exact N|]. intros F1 F2. pose proof (next_auto_free _ _ _ _ N F1 F2) as Q. injection Q as Q. exact Q. }
  split. { intros pre h post E. apply (autos_each _ _ _ _ _ _ _ _ Ch _ _ _ E). }
  intros G h I. specialize (Ma G). rewrite Forall_forall in Ma. apply Ma, I.
Qed.

Lemma run_kept_out b b' :
  built b -> b_autos b = true -> get_skill_timing b = Ok b' ->
  exists slog tlog ticks au spec hits d,
    rotation_played b slog tlog
    /\ auto_skill b au /\ sk_timing au = COne spec
    /\ shows_timeline b b' (flat_map press_entries (slog ++ tlog) ++ ticks ++ map (hit_call au (application_delay spec)) hits) d
    /\ forall pre h h' post ps,
         hits = (pre ++ h :: h' :: post)%list -> get_no_auto_periods b = Ok ps ->
         (separate_periods ps -> forall p, In p ps -> ~ inside p (hit_time h'))
         /\ (separate_windows (SpecTimeline.windows_of b (hit_target h)) -> (forall p, In p ps -> snd p <> Fin (hit_time h')) ->
             ~ in_downtime (SpecTimeline.windows_of b (hit_target h)) (hit_time h') DC_AUTO).
Proof.
  intros B A H. destruct (autos_shown b b' B A H) as (slog & tlog & ticks & au & hits & calls & d & last0 & fi & P & S & D & L0 & L1 & Fi & Ti & De).
  pose proof De as (spec & first & last & Au & Sp & Ea & La & Ch & -> & Ma).
  exists slog, tlog, ticks, au, spec, hits, d.
  split; [exact P|]. split; [exact Au|]. split; [exact Sp|]. split; [exact S|].
  intros pre h h' post ps E Np. exact (delivered_kept_out b _ _ _ _ _ _ pre h h' post ps De E Np).
Qed.
