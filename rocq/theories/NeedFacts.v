(** * A rotation reads little of its library (C77) *)

From Coq Require Import ZArith QArith List String Bool.
From Verif Require Import Base BaseFacts Types Stats Library LibraryFacts Events Rotation DamageBuild Damage SpecReplay SpecShuffle Relabel SpecMove SpecNeed.
Import ListNotations.
Open Scope string_scope.
Open Scope Z_scope.

Definition relib (L : library) (b : builder) : builder :=
  mkBuilder (b_stats b) L (b_snap_dots b) (b_autos b) (b_ignore_trailing b) (b_fight_start b) (b_windows b) (b_default_target b)
    (b_priority b) (b_timed b) (b_sequence b) (b_dots b) (b_press b) (b_queue b) (b_stamps b) (b_targets b).

Section Read.
  Variables (L : library).

  Lemma carry_relib b i : let own := st_job (b_stats b) in
    get_skill (b_library b) (fst (asked own i)) (snd (asked own i)) = get_skill L (fst (asked own i)) (snd (asked own i)) ->
    carry_out (relib L b) i = rmap (relib L) (carry_out b i).
  Proof.
    intros own E. destruct i as [c n|t c]; cbn [carry_out]; unfold add_next, add;
      cbn [asked fst snd] in E; cbn [relib process_targets b_targets b_default_target];
      unfold job_or_default; cbn [relib b_stats b_library]; unfold own in E; rewrite <- E;
      destruct (get_skill (b_library b) (c_name c) _) as [s|e]; reflexivity.
  Qed.
  Lemma carry_keeps b i b' : carry_out b i = Ok b' -> b_stats b' = b_stats b /\ b_library b' = b_library b /\ b_autos b' = b_autos b.
  Proof.
    destruct i as [c n|t c]; cbn [carry_out]; unfold add_next, add; destruct (process_targets b (c_targets c)) as [tg al]; intros E;
      apply bind_ok in E as (s & _ & E); injection E as <-; repeat split.
  Qed.
  Lemma follow_keeps l : forall b b', follow b l = Ok b' -> b_stats b' = b_stats b /\ b_library b' = b_library b /\ b_autos b' = b_autos b.
  Proof.
    induction l as [|i l IH]; intros b b' F; [injection F as <-; repeat split|].
    unfold follow in F. cbn [foldM] in F. apply bind_ok in F as (b1 & E & F). apply IH in F as (-> & -> & ->). exact (carry_keeps _ _ _ E).
  Qed.
  Lemma follow_relib l : forall b,
    (forall i, In i l -> get_skill (b_library b) (fst (asked (st_job (b_stats b)) i)) (snd (asked (st_job (b_stats b)) i))
                         = get_skill L (fst (asked (st_job (b_stats b)) i)) (snd (asked (st_job (b_stats b)) i))) ->
    follow (relib L b) l = rmap (relib L) (follow b l).
  Proof.
    induction l as [|i l IH]; intros b H; [reflexivity|]. unfold follow. cbn [foldM].
    rewrite (carry_relib b i (H i (or_introl eq_refl))). destruct (carry_out b i) as [b1|e] eqn:E; [|reflexivity]. cbn [rmap bind].
    apply (IH b1). destruct (carry_keeps _ _ _ E) as (-> & -> & _). intros j J. exact (H j (or_intror J)).
  Qed.

  Variable b : builder.
  Hypothesis RS : get_all_resource_settings (b_library b) (st_job (b_stats b)) = get_all_resource_settings L (st_job (b_stats b)).
  Hypothesis BR : get_all_combo_breakers (b_library b) (st_job (b_stats b)) = get_all_combo_breakers L (st_job (b_stats b)).
  Lemma trackers_relib p : new_trackers L (st_job (b_stats b)) p = new_trackers (b_library b) (st_job (b_stats b)) p.
  Proof. unfold new_trackers. rewrite RS, BR. reflexivity. Qed.
  Lemma effects_relib tl t a tg : applicable_effects (relib L b) tl t a tg = applicable_effects b tl t a tg.
  Proof. unfold applicable_effects. cbn [relib b_library b_stats b_priority]. rewrite <- RS. reflexivity. Qed.
  Lemma periods_relib : get_no_auto_periods (relib L b) = get_no_auto_periods b.
  Proof. unfold get_no_auto_periods. cbn [relib b_library b_stats b_priority b_timed]. rewrite trackers_relib. reflexivity. Qed.
  Lemma loop_relib fuel : forall stamps auto delay wd last qu snap ind,
    auto_loop fuel (relib L b) stamps auto delay wd last qu snap ind = auto_loop fuel b stamps auto delay wd last qu snap ind.
  Proof.
    induction fuel as [|fuel IH]; intros stamps auto delay wd last qu snap ind; cbn [auto_loop]; [reflexivity|].
    destruct (negb (snap + delay <? last)); [reflexivity|].
    destruct (of_option IndexError (nth_error stamps (Nat.pred (advance (skipn ind stamps) ind snap)))) as [[z target]|e]; [|reflexivity]. cbn [bind].
    destruct (q_add_new qu (time_to_prio snap) snap (Some (snap + delay)) auto default_modifier (SFlag true, SFlag true) [target]) as [qu'|e]; [|reflexivity].
    cbn [bind]. destruct (speed_timeline qu') as [tl|e]; [|reflexivity]. cbn [bind].
    rewrite effects_relib, periods_relib. cbn [relib b_stats b_windows b_default_target].
    destruct (applicable_effects b tl snap auto [b_default_target b]) as [[bu de]|e]; [|reflexivity]. cbn [bind].
    destruct (get_no_auto_periods b) as [ps|e]; [|reflexivity]. cbn [bind].
    destruct (next_auto_time _ ps _) as [[t|]|e]; [apply IH|reflexivity|reflexivity].
  Qed.
  Hypothesis AU : b_autos b = true -> has_skill (b_library b) "Shot" (st_job (b_stats b)) = has_skill L "Shot" (st_job (b_stats b))
      /\ get_skill (b_library b) "Shot" (st_job (b_stats b)) = get_skill L "Shot" (st_job (b_stats b))
      /\ get_skill (b_library b) "Auto" (st_job (b_stats b)) = get_skill L "Auto" (st_job (b_stats b)).
  Lemma autos_relib stamps last qu : b_autos b = true -> add_autos (relib L b) stamps last qu = add_autos b stamps last qu.
  Proof.
    intros A. destruct (AU A) as (H & S & T). unfold add_autos, auto_skill_of. cbn [relib b_library b_stats]. rewrite H, S, T.
    destruct (shorten_sequence (sort_by fst stamps)) as [sh|e]; [|reflexivity]. cbn [bind].
    destruct (let* h := has_skill L "Shot" (st_job (b_stats b)) in if h then get_skill L "Shot" (st_job (b_stats b)) else get_skill L "Auto" (st_job (b_stats b))) as [au|e];
      [|reflexivity]. cbn [bind].
    destruct (get_first_damage_time qu) as [f|e]; [|reflexivity]. cbn [bind]. destruct (of_option TypeError f) as [fd|e]; [|reflexivity]. cbn [bind].
    destruct (auto_delay_of au) as [d|e]; [|reflexivity]. cbn [bind].
    destruct (of_option TypeError _) as [la|e]; [|reflexivity]. cbn [bind]. apply loop_relib.
  Qed.
End Read.

Lemma run_relib L b :
  get_all_resource_settings (b_library b) (st_job (b_stats b)) = get_all_resource_settings L (st_job (b_stats b)) ->
  get_all_combo_breakers (b_library b) (st_job (b_stats b)) = get_all_combo_breakers L (st_job (b_stats b)) ->
  (b_autos b = true -> has_skill (b_library b) "Shot" (st_job (b_stats b)) = has_skill L "Shot" (st_job (b_stats b))
      /\ get_skill (b_library b) "Shot" (st_job (b_stats b)) = get_skill L "Shot" (st_job (b_stats b))
      /\ get_skill (b_library b) "Auto" (st_job (b_stats b)) = get_skill L "Auto" (st_job (b_stats b))) ->
  get_skill_timing (relib L b) = rmap (relib L) (get_skill_timing b).
Proof.
  intros RS BR AU. unfold get_skill_timing.
  change (with_windows (relib L b) (process_downtime_windows (relib L b))) with (relib L (with_windows b (process_downtime_windows b))).
  set (c := with_windows b (process_downtime_windows b)).
  change (b_stats b) with (b_stats c) in RS, BR, AU. change (b_library b) with (b_library c) in RS, BR, AU. change (b_autos b) with (b_autos c) in AU.
  clearbody c. clear b.
  assert (S1 : process_q_sequence (relib L c) q_init (b_dots (relib L c)) [] (b_stamps (relib L c)) = process_q_sequence c q_init (b_dots c) [] (b_stamps c)).
  { unfold process_q_sequence. cbn [relib b_library b_stats b_priority b_fight_start b_sequence b_dots b_stamps]. rewrite (trackers_relib L c RS BR). reflexivity. }
  rewrite S1. destruct (process_q_sequence c q_init (b_dots c) [] (b_stamps c)) as [p1|e]; [|reflexivity]. cbn [bind].
  assert (S2 : process_q_timed (relib L c) (si_queue (pa_sim p1)) (si_dots (pa_sim p1)) (pa_press p1) (pa_stamps p1)
               = process_q_timed c (si_queue (pa_sim p1)) (si_dots (pa_sim p1)) (pa_press p1) (pa_stamps p1)).
  { unfold process_q_timed. cbn [relib b_library b_stats b_priority b_timed]. rewrite (trackers_relib L c RS BR). reflexivity. }
  rewrite S2. destruct (process_q_timed c _ _ _ _) as [p2|e]; [|reflexivity]. cbn [bind].
  change (b_snap_dots (relib L c)) with (b_snap_dots c). change (b_ignore_trailing (relib L c)) with (b_ignore_trailing c).
  destruct (process_all_dots (b_snap_dots c) _ _ _) as [q3|e]; [|reflexivity]. cbn [bind].
  assert (S3 : (if b_autos (relib L c) then add_autos (relib L c) (pa_stamps p2) (if b_ignore_trailing c then get_last_event_time (si_queue (pa_sim p2)) else None) q3 else Ok q3)
               = (if b_autos c then add_autos c (pa_stamps p2) (if b_ignore_trailing c then get_last_event_time (si_queue (pa_sim p2)) else None) q3 else Ok q3)).
  { change (b_autos (relib L c)) with (b_autos c). destruct (b_autos c) eqn:A; [|reflexivity].
    rewrite (autos_relib L c RS BR (fun _ => AU eq_refl)); [reflexivity|exact A]. }
  rewrite S3. clear S3. destruct (if b_autos c then _ else _) as [q4|e]; [|reflexivity]. cbn [bind].
  change (b_fight_start (relib L c)) with (b_fight_start c).
  destruct (match b_fight_start c with None => shift_timelines q4 (pa_press p2) | Some _ => Ok (q4, pa_press p2) end) as [[q5 pr]|e]; [|reflexivity]. cbn [bind].
  change (b_windows (relib L c)) with (b_windows c). destruct (remove_damage_during_downtime (b_windows c) q5) as [q6|e]; reflexivity.
Qed.

Lemma init_relib st lib L snap au ig fs w target :
  get_status_effect_priority lib (st_job st) = get_status_effect_priority L (st_job st) ->
  rb_init st L snap au ig fs w target = rmap (relib L) (rb_init st lib snap au ig fs w target).
Proof. intros P. unfold rb_init. rewrite P. destruct (get_status_effect_priority L (st_job st)); reflexivity. Qed.

Lemma needs_timing st lib lib' snap au ig fs w target l :
  same_for (st_job st) au l lib lib' ->
  timing_with st lib snap au ig fs w target l = timing_with st lib' snap au ig fs w target l.
Proof.
  intros (P & R & B & S & A). unfold timing_with. rewrite (init_relib st lib lib' _ _ _ _ _ _ P).
  destruct (rb_init st lib snap au ig fs w target) as [b|e] eqn:I; [|reflexivity]. cbn [rmap bind].
  unfold rb_init in I. apply bind_ok in I as (pr & _ & I). injection I as <-.
  rewrite (follow_relib lib' l); [|exact S].
  destruct (follow _ l) as [b1|e] eqn:F; [|reflexivity]. cbn [rmap bind].
  destruct (follow_keeps l _ _ F) as (E1 & E2 & E3). cbn [b_stats b_library b_autos] in E1, E2, E3.
  rewrite (run_relib lib' b1); [|rewrite E1, E2; assumption|rewrite E1, E2; assumption|rewrite E1, E2, E3; exact A].
  destruct (get_skill_timing b1); reflexivity.
Qed.
Lemma run_keeps b r : get_skill_timing b = Ok r -> b_stats r = b_stats b /\ b_library r = b_library b.
Proof.
  unfold get_skill_timing. intros E. apply bind_ok in E as (p1 & _ & E). apply bind_ok in E as (p2 & _ & E). apply bind_ok in E as (q3 & _ & E).
  apply bind_ok in E as (q4 & _ & E). apply bind_ok in E as ((q5 & pr) & _ & E). apply bind_ok in E as (q6 & _ & E). injection E as <-. split; reflexivity.
Qed.
Lemma needs_report st lib lib' snap au ig fs w target l n u u' :
  same_for (st_job st) au l lib lib' ->
  report_with st lib snap au ig fs w target l n u u' = report_with st lib' snap au ig fs w target l n u u'.
Proof.
  intros (P & R & B & S & A). unfold report_with. rewrite (init_relib st lib lib' _ _ _ _ _ _ P).
  destruct (rb_init st lib snap au ig fs w target) as [b|e] eqn:I; [|reflexivity]. cbn [rmap bind].
  unfold rb_init in I. apply bind_ok in I as (pr & _ & I). injection I as <-.
  rewrite (follow_relib lib' l); [|exact S].
  destruct (follow _ l) as [b1|e] eqn:F; [|reflexivity]. cbn [rmap bind].
  destruct (follow_keeps l _ _ F) as (E1 & E2 & E3). cbn [b_stats b_library b_autos] in E1, E2, E3.
  unfold report_of. rewrite (run_relib lib' b1); [|rewrite E1, E2; assumption|rewrite E1, E2; assumption|rewrite E1, E2, E3; exact A].
  destruct (get_skill_timing b1) as [r|e]; [|reflexivity]. cbn [rmap bind relib b_queue b_stats b_library].
  assert (D : db_init (b_stats b1) lib' = db_init (b_stats b1) (b_library b1)).
  { unfold db_init, new_trackers. rewrite E1, E2, P, R, B. reflexivity. }
  rewrite D. reflexivity.
Qed.

(** ** Libraries with more in them *)

Lemma dget_setdefault {V} k k' (v : V) d : k <> k' \/ In k' (dkeys d) -> dget k (setdefault k' v d) = dget k d.
Proof.
  unfold setdefault. intros H. destruct (dmem k' d) eqn:M; [reflexivity|]. destruct H as [H|H]; [exact (dget_dset_other k k' v d H)|].
  apply dmem_spec in H. congruence.
Qed.
Lemma dget_setdefault_empty {V} k k' n (d : dict (dict V)) :
  (let* x := of_option KeyError (dget k (setdefault (V:=dict V) k' [] d)) in of_option KeyError (dget n x))
  = (let* x := of_option KeyError (dget k d) in of_option KeyError (dget n x)).
Proof.
  unfold setdefault. destruct (dmem k' d) eqn:M; [reflexivity|]. destruct (string_dec k k') as [->|N].
  - rewrite dget_dset_same. assert (G : dget k' d = None). { apply dget_none_iff. intros C. apply dmem_spec in C. congruence. } rewrite G. reflexivity.
  - rewrite (dget_dset_other (V:=dict V) k k' [] d N). reflexivity.
Qed.

Lemma skill_needless own autos calls lib j s lib' :
  j <> own \/ knows lib own -> add_skill (set_current_job_class lib j) s = Ok lib' ->
  (forall i, In i calls -> asked own i <> (sk_name s, j)) -> (autos = true -> j = own -> sk_name s <> "Shot" /\ sk_name s <> "Auto") ->
  same_for own autos calls lib lib'.
Proof.
  intros K E N A. unfold add_skill, at_current in E. cbn [set_current_job_class lib_current of_option lib_skills lib_priority lib_resources lib_breakers] in E.
  apply bind_ok in E as ((j' & d) & G & E). apply bind_ok in G as (j1 & J1 & G). injection J1 as <-. apply bind_ok in G as (d1 & G & J1).
  injection J1 as <- <-. destruct (dmem (sk_name s) d1); [discriminate E|]. injection E as <-.
  assert (GS : forall n k, (n, k) <> (sk_name s, j) ->
    get_skill lib n k = get_skill (mkLib (dset j (dset (sk_name s) s d1) (setdefault j [] (lib_skills lib))) (setdefault j [] (lib_priority lib))
                          (setdefault j [] (lib_resources lib)) (setdefault j [] (lib_breakers lib)) (Some j) (lib_version lib) (lib_level lib)) n k).
  { intros n k NK. unfold get_skill. cbn [lib_skills]. destruct (string_dec k j) as [->|D].
    - rewrite dget_dset_same. cbn [of_option bind]. rewrite dget_dset_other by congruence.
      rewrite <- (dget_setdefault_empty j j n (lib_skills lib)). unfold dict in *. rewrite G. reflexivity.
    - rewrite dget_dset_other by congruence. rewrite dget_setdefault by (left; congruence). reflexivity. }
  assert (K' : forall V (x : dict V), (j <> own \/ In own (dkeys x)) -> own <> j \/ In j (dkeys x)).
  { intros V x [H|H]; [left; congruence|]. destruct (string_dec own j) as [->|D]; [right; exact H|left; exact D]. }
  split; [|split; [|split; [|split]]].
  - unfold get_status_effect_priority. cbn [lib_priority]. rewrite dget_setdefault; [reflexivity|]. apply K'. destruct K as [K|(_ & K & _)]; [left; exact K|right; exact K].
  - unfold get_all_resource_settings. cbn [lib_resources]. rewrite dget_setdefault; [reflexivity|]. apply K'. destruct K as [K|(_ & _ & K & _)]; [left; exact K|right; exact K].
  - unfold get_all_combo_breakers. cbn [lib_breakers]. rewrite dget_setdefault; [reflexivity|]. apply K'. destruct K as [K|(_ & _ & _ & K)]; [left; exact K|right; exact K].
  - intros i I. apply GS. specialize (N i I). destruct (asked own i) as [n k]. exact N.
  - intros AT. specialize (A AT). split; [|split].
    + unfold has_skill. cbn [lib_skills]. destruct (string_dec own j) as [<-|D].
      * rewrite dget_dset_same. cbn [of_option bind]. destruct K as [K|(K & _)]; [congruence|].
        rewrite dget_setdefault in G by (right; exact K). rewrite G. cbn [bind]. rewrite LibraryFacts.dmem_dset.
        destruct (A eq_refl) as [A1 _]. destruct (String.eqb_spec "Shot" (sk_name s)); [congruence|reflexivity].
      * rewrite dget_dset_other by congruence. rewrite dget_setdefault by (left; congruence). reflexivity.
    + apply GS. intros C. injection C as C1 C2. destruct (A (eq_sym C2)). congruence.
    + apply GS. intros C. injection C as C1 C2. destruct (A (eq_sym C2)). congruence.
Qed.

(** Everything but the job [j] is the same. *)
Definition but (j : string) (lib lib' : library) : Prop :=
  lib_current lib' = Some j
  /\ forall k, k <> j -> dget k (lib_skills lib') = dget k (lib_skills lib) /\ dget k (lib_priority lib') = dget k (lib_priority lib)
     /\ dget k (lib_resources lib') = dget k (lib_resources lib) /\ dget k (lib_breakers lib') = dget k (lib_breakers lib).
Lemma but_current lib j : but j lib (set_current_job_class lib j).
Proof. split; [reflexivity|]. intros k D. cbn. rewrite !dget_setdefault by (left; exact D). repeat split. Qed.
Lemma at_current_ok {V} l (d : dict V) j v : at_current l d = Ok (j, v) -> lib_current l = Some j.
Proof. unfold at_current. destruct (lib_current l) as [c|]; [|discriminate]. cbn. destruct (dget c d); [|discriminate]. intros E. injection E as <- _. reflexivity. Qed.
Ltac but_step H := let C := fresh in let A := fresh in
  destruct H as [C A]; split; [first [exact C|reflexivity]|]; intros k D; specialize (A k D); cbn [lib_skills lib_priority lib_resources lib_breakers]; rewrite ?dget_dset_other by exact D; exact A.
Lemma but_priority lib l j p l' : but j lib l -> set_status_effect_priority l p = Ok l' -> but j lib l'.
Proof. intros B E. pose proof (proj1 B) as C. unfold set_status_effect_priority in E. rewrite C in E. cbn [of_option bind] in E. injection E as <-. but_step B. Qed.
Lemma but_breaker lib l j g b l' : but j lib l -> add_combo_breaker l g b = Ok l' -> but j lib l'.
Proof.
  intros B E. pose proof (proj1 B) as C. unfold add_combo_breaker in E. apply bind_ok in E as ((j' & d) & A & E).
  apply at_current_ok in A. rewrite C in A. injection A as <-. injection E as <-. but_step B.
Qed.
Lemma but_resource lib l j n r l' : but j lib l -> lib_add_resource l n r = Ok l' -> but j lib l'.
Proof.
  intros B E. pose proof (proj1 B) as C. unfold lib_add_resource in E. apply bind_ok in E as ((j' & d) & A & E).
  apply at_current_ok in A. rewrite C in A. injection A as <-. injection E as <-. but_step B.
Qed.
Lemma but_skill lib l j s l' : but j lib l -> add_skill l s = Ok l' -> but j lib l'.
Proof.
  intros B E. pose proof (proj1 B) as C. unfold add_skill in E. apply bind_ok in E as ((j' & d) & A & E).
  apply at_current_ok in A. rewrite C in A. injection A as <-. destruct (dmem (sk_name s) d); [discriminate E|]. injection E as <-. but_step B.
Qed.
Lemma but_fold {A} (f : library -> A -> res library) lib j : (forall l x l', but j lib l -> f l x = Ok l' -> but j lib l') ->
  forall xs l l', but j lib l -> foldM f xs l = Ok l' -> but j lib l'.
Proof.
  intros H xs. induction xs as [|x xs IH]; intros l l' B E; [injection E as <-; exact B|].
  cbn [foldM] in E. apply bind_ok in E as (l1 & E1 & E). exact (IH l1 l' (H l x l1 B E1) E).
Qed.
Lemma but_class lib cs lib' : add_all_skills_from lib cs = Ok lib' -> but (cs_job cs) lib lib'.
Proof.
  unfold add_all_skills_from. set (j := cs_job cs). intros E. pose proof (but_current lib j) as B.
  apply bind_ok in E as (l1 & E1 & E). assert (B1 : but j lib l1).
  { destruct (cs_priority cs) as [p|]; [exact (but_priority _ _ _ _ _ B E1)|injection E1 as <-; exact B]. }
  apply bind_ok in E as (l2 & E2 & E). assert (B2 : but j lib l2).
  { destruct (cs_breakers cs) as [br|]; [|injection E2 as <-; exact B1].
    refine (but_fold _ lib j _ br l1 l2 B1 E2). intros l x l'. apply but_breaker. }
  apply bind_ok in E as (l3 & E3 & E). assert (B3 : but j lib l3).
  { unfold add_class_skills in E3. destruct (cs_skills cs) as [sks|e].
    - refine (but_fold _ lib j _ sks l2 l3 B2 E3). intros l x l'. apply but_skill.
    - destruct e; try discriminate E3. injection E3 as <-. exact B2. }
  refine (but_fold _ lib j _ (cs_resources cs) l3 lib' B3 E). intros l x l'. apply but_resource.
Qed.
Lemma job_needless own autos calls lib cs lib' :
  add_all_skills_from lib cs = Ok lib' -> cs_job cs <> own -> (forall i, In i calls -> snd (asked own i) <> cs_job cs) ->
  same_for own autos calls lib lib'.
Proof.
  intros E N A. destruct (but_class lib cs lib' E) as [_ B].
  assert (G : forall n k, k <> cs_job cs -> get_skill lib n k = get_skill lib' n k).
  { intros n k D. unfold get_skill. rewrite (proj1 (B k D)). reflexivity. }
  destruct (B own (not_eq_sym N)) as (S & P & R & C).
  split; [|split; [|split; [|split]]].
  - unfold get_status_effect_priority. rewrite P. reflexivity.
  - unfold get_all_resource_settings. rewrite R. reflexivity.
  - unfold get_all_combo_breakers. rewrite C. reflexivity.
  - intros i I. exact (G _ _ (A i I)).
  - intros _. split; [unfold has_skill; rewrite S; reflexivity|]. split; apply G; congruence.
Qed.
Lemma same_dicts own autos calls lib lib' :
  lib_skills lib = lib_skills lib' -> lib_priority lib = lib_priority lib' -> lib_resources lib = lib_resources lib' -> lib_breakers lib = lib_breakers lib' ->
  same_for own autos calls lib lib'.
Proof.
  intros S P R B. unfold same_for, get_status_effect_priority, get_all_resource_settings, get_all_combo_breakers, get_skill, has_skill.
  rewrite S, P, R, B. repeat split.
Qed.
