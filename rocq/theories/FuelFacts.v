(** * No loop of the rotation builder runs out of fuel, except the auto attacks
    when their delay is shorter than 10 ms (C22). *)

From Coq Require Import ZArith QArith List String Bool Lia Permutation.
From Verif Require Import Base Float Heap Strings Types Lookup StatusEffect JobResource Combo Channeling Stats Library Events Rotation.
From Verif Require Import BaseFacts HeapFacts SpecQueue SpecTimeline TimelineFacts SpecAuto EventsFacts AutoFacts AutoProps.
Import ListNotations.
Open Scope Z_scope.

Local Opaque fl.

Definition nf {A} (r : res A) : Prop := r <> Err OutOfFuel.

Lemma nf_ok {A} (a : A) : nf (Ok a).
Proof. discriminate. Qed.
Lemma nf_bind {A B} (r : res A) (f : A -> res B) : nf r -> (forall a, r = Ok a -> nf (f a)) -> nf (bind r f).
Proof. intros H1 H2. destruct r as [a|e]; cbn; [apply H2; reflexivity | intros E; injection E as ->; apply H1; reflexivity]. Qed.
Lemma nf_option {A} e (o : option A) : e <> OutOfFuel -> nf (of_option e o).
Proof. intros N. destruct o; cbn; [discriminate|]. intros E; injection E as ->; apply N; reflexivity. Qed.
Lemma nf_foldM {A S} (f : S -> A -> res S) l : (forall s a, nf (f s a)) -> forall s, nf (foldM f l s).
Proof. intros H. induction l as [|a l IH]; intros s; cbn [foldM]; [apply nf_ok|]. apply nf_bind; [apply H | auto]. Qed.
Lemma nf_mapM {A B} (f : A -> res B) l : (forall a, nf (f a)) -> nf (mapM f l).
Proof. intros H. induction l as [|a l IH]; cbn [mapM]; [apply nf_ok|]. apply nf_bind; [apply H|]. intros; apply nf_bind; [exact IH|]. intros; apply nf_ok. Qed.
Lemma nf_filterM {A} (f : A -> res bool) l : (forall a, nf (f a)) -> nf (filterM f l).
Proof. intros H. induction l as [|a l IH]; cbn [filterM]; [apply nf_ok|]. apply nf_bind; [apply H|]. intros; apply nf_bind; [exact IH|]. intros; apply nf_ok. Qed.

(** ** Heaps *)
Section Heaps.
  Context {A : Type} (lt : A -> A -> res bool).
  Hypothesis Lt : forall x y, nf (lt x y).

  Lemma nf_siftdown fuel : forall h pos, (pos < fuel)%nat -> nf (siftdown lt fuel h pos).
  Proof.
    induction fuel as [|fuel IH]; intros h pos F; [lia|]. cbn [siftdown]. destruct pos as [|p]; [apply nf_ok|].
    pose proof (par_lt (S p) ltac:(lia)) as PL. unfold par in PL; cbn [pred] in PL.
    destruct (nth_error h (S p)) as [x|]; [|discriminate]. destruct (nth_error h (Nat.div2 p)) as [y|]; [|discriminate].
    apply nf_bind; [apply Lt|]. intros [|] _; [apply IH; lia | apply nf_ok].
  Qed.
  Lemma nf_siftup_leaf fuel : forall h pos, (List.length h <= pos + fuel)%nat -> (pos < List.length h)%nat ->
    nf (siftup_leaf lt fuel h pos) /\ forall h' p', siftup_leaf lt fuel h pos = Ok (h', p') -> (p' < List.length h)%nat.
  Proof.
    induction fuel as [|fuel IH]; intros h pos F L; [lia|]. cbn [siftup_leaf].
    destruct (nth_error h pos) as [x|] eqn:Ex; [|split; [discriminate | intros; discriminate]].
    destruct (nth_error h (2 * pos + 1)) as [lx|] eqn:El; [|split; [discriminate | intros h' p' E; injection E as <- <-; exact L]].
    assert (Step : forall c cx, (pos < c)%nat -> nth_error h c = Some cx ->
       nf (siftup_leaf lt fuel (upd (upd h pos cx) c x) c)
       /\ forall h' p', siftup_leaf lt fuel (upd (upd h pos cx) c x) c = Ok (h', p') -> (p' < List.length h)%nat).
    { intros c cx Hc Ec. apply nth_error_lt in Ec. pose proof (IH (upd (upd h pos cx) c x) c) as G. rewrite !upd_length in G. apply G; lia. }
    destruct (nth_error h (2 * pos + 2)) as [rx|] eqn:Er; [|apply Step; [lia | exact El]].
    pose proof (Lt lx rx) as Lx. destruct (lt lx rx) as [[|]|e]; cbn [bind]; [apply Step; [lia | exact El] | apply Step; [lia | exact Er]|].
    split; [intros E; injection E as ->; apply Lx; reflexivity | intros; discriminate].
  Qed.
  Lemma nf_heappush h x : nf (heappush lt h x).
  Proof. apply nf_siftdown. lia. Qed.
  Lemma nf_heappop h : nf (heappop lt h).
  Proof.
    destruct h as [|top t]; [discriminate|]. unfold heappop. destruct (removelast (top :: t)) as [|r rest]; [apply nf_ok|].
    set (h1 := _ :: rest). destruct (nf_siftup_leaf (List.length h1) h1 0 ltac:(lia) ltac:(cbn; lia)) as (N & L).
    apply nf_bind; [exact N|]. intros [h2 pos] E. apply nf_bind; [|intros; apply nf_ok]. apply nf_siftdown. exact (L _ _ E).
  Qed.
  Lemma nf_drain fuel : forall h, (List.length h <= fuel)%nat -> nf (drain lt fuel h).
  Proof.
    induction fuel as [|fuel IH]; intros h L; destruct h as [|a h]; cbn [drain]; try apply nf_ok; [cbn in L; lia|].
    apply nf_bind; [apply nf_heappop|]. intros [x h'] E. apply nf_bind; [|intros; apply nf_ok]. apply IH.
    apply heappop_perm, Permutation_length in E. cbn in E, L. lia.
  Qed.
End Heaps.

Ltac nf0 := first
  [ apply nf_ok | (apply nf_option; discriminate) | discriminate | assumption
  | (apply nf_foldM; intros) | (apply nf_mapM; intros) | (apply nf_filterM; intros)
  | (apply nf_bind; [|intros]) ].
Ltac nf_split := match goal with
  | |- nf (match ?x with _ => _ end) => destruct x
  | |- nf (let '_ := ?x in _) => destruct x
  end.

(** ** The rest, bottom up *)
Create HintDb nf.
Ltac go := repeat (cbv beta iota zeta; first [ solve [auto 2 with nf nocore] | nf0 | nf_split ]).

Lemma nf_event_lt a b : nf (event_lt a b). Proof. apply nf_ok. Qed.
Lemma nf_timed_lt a b : nf (timed_lt a b). Proof. unfold timed_lt. go. Qed.
Lemma nf_q_add qu a b c d e f g h i j k : nf (q_add qu a b c d e f g h i j k).
Proof.
  unfold q_add. destruct (match g with None => _ | Some _ => _ end). apply nf_bind; [|intros; apply nf_ok].
  apply nf_heappush, nf_event_lt.
Qed.
Lemma nf_q_add_new qu a b c d e f g : nf (q_add_new qu a b c d e f g). Proof. apply nf_q_add. Qed.
Lemma nf_q_drain qu : nf (q_drain qu). Proof. apply nf_drain; [apply nf_event_lt | lia]. Qed.
#[local] Hint Resolve nf_q_add_new nf_q_drain : nf.

Lemma nf_best_key keys wc : nf (get_best_key keys wc).
Proof. unfold get_best_key. go. Qed.
#[local] Hint Resolve nf_best_key : nf.
Lemma nf_clookup {V} (d : list (cond * V)) wc : nf (clookup d wc). Proof. unfold clookup. go. Qed.
#[local] Hint Resolve nf_clookup : nf.
Lemma nf_cspec {V} (d : cspec V) m : nf (cspec_get d m). Proof. unfold cspec_get. go. Qed.
Lemma nf_tspec {V} (d : tspec V) m : nf (tspec_get d m). Proof. unfold tspec_get. go. Qed.
#[local] Hint Resolve nf_cspec nf_tspec : nf.
Lemma nf_buff s m : nf (get_buff_spec s m). Proof. apply nf_cspec. Qed.
Lemma nf_debuff s m : nf (get_debuff_spec s m). Proof. apply nf_cspec. Qed.
Lemma nf_timing s m : nf (get_timing_spec s m). Proof. apply nf_cspec. Qed.
Lemma nf_damage s m : nf (get_damage_spec s m). Proof. apply nf_cspec. Qed.
Lemma nf_combo s m : nf (get_combo_spec s m). Proof. apply nf_tspec. Qed.
Lemma nf_jr s m : nf (get_job_resource_spec s m). Proof. apply nf_tspec. Qed.
Lemma nf_fus s m : nf (get_follow_up_skills s m). Proof. apply nf_tspec. Qed.
Lemma nf_channeling s m : nf (get_channeling_spec s m). Proof. unfold get_channeling_spec. go. Qed.
#[local] Hint Resolve nf_buff nf_debuff nf_timing nf_damage nf_combo nf_jr nf_fus nf_channeling : nf.

Lemma nf_table_spec t wc : nf (table_spec t wc). Proof. unfold table_spec. go. Qed.
Lemma nf_bonus p mn : nf (bonus_percent_of p mn). Proof. unfold bonus_percent_of. go. Qed.
#[local] Hint Resolve nf_table_spec nf_bonus : nf.
Lemma nf_search t mn b i l : nf (positional_search t mn b i l).
Proof. induction l as [|m l IH]; cbn [positional_search]; go. Qed.
#[local] Hint Resolve nf_search : nf.
Lemma nf_positional s m : nf (get_positional_condition s m). Proof. unfold get_positional_condition. go. Qed.
Lemma nf_add_positional s m : nf (add_positional s m).
Proof. unfold add_positional. pose proof (nf_positional s m) as H. destruct (get_positional_condition s m) as [|[]]; try discriminate. exact (fun _ => H eq_refl). Qed.
#[local] Hint Resolve nf_add_positional : nf.

Lemma nf_status st t s m tg : nf (add_to_status_effects st t s m tg). Proof. unfold add_to_status_effects. go. Qed.
Lemma nf_merge_effect e sp : nf (merge_effect e sp). Proof. unfold merge_effect, merge_forced. go. Qed.
#[local] Hint Resolve nf_status nf_merge_effect : nf.
Lemma nf_use_effect st n : nf (use_effect st n). Proof. unfold use_effect. go. Qed.
#[local] Hint Resolve nf_use_effect : nf.
Lemma nf_compile p t d dl n : nf (compile_effects p t d dl n). Proof. unfold compile_effects. go. Qed.
#[local] Hint Resolve nf_compile : nf.
Lemma nf_compile_buffs st t s : nf (compile_buffs st t s). Proof. unfold compile_buffs. go. Qed.
Lemma nf_compile_debuffs st t s tg : nf (compile_debuffs st t s tg). Proof. unfold compile_debuffs. go. Qed.
#[local] Hint Resolve nf_compile_buffs nf_compile_debuffs : nf.
Lemma nf_add_resource tr t s m : nf (add_resource tr t s m).
Proof. unfold add_resource. apply nf_bind; [auto 2 with nf|]. intros; apply nf_foldM; intros; unfold add_one_resource; go. Qed.
Lemma nf_combo_update ct t s m : nf (compile_and_update_combo ct t s m). Proof. unfold compile_and_update_combo. go. Qed.
#[local] Hint Resolve nf_add_resource nf_combo_update : nf.
Lemma nf_process_channeling st t s m : nf (process_channeling st t s m).
Proof. unfold process_channeling, start_channeling. go. Qed.
Lemma nf_ch_finalize st : nf (ch_finalize st). Proof. unfold ch_finalize. go. Qed.
Lemma nf_ch_windows st : nf (get_channeling_windows st). Proof. unfold get_channeling_windows. go. Qed.
#[local] Hint Resolve nf_process_channeling nf_ch_finalize nf_ch_windows : nf.

Lemma nf_speed t s v l : nf (get_time_using_speed_stat t s v l).
Proof. unfold get_time_using_speed_stat, get_consts. go. Qed.
#[local] Hint Resolve nf_speed : nf.
Lemma nf_cast st ts m bu : nf (get_cast_time st ts m bu). Proof. unfold get_cast_time, scaled_time. go. Qed.
Lemma nf_recast st ts bu de : nf (get_recast_time st ts bu de). Proof. unfold get_recast_time. go. Qed.
Lemma nf_skill_times ts m t c : nf (skill_times ts m t c). Proof. unfold skill_times. go. Qed.
Lemma nf_compile_press tk t s m : nf (compile_press tk t s m). Proof. unfold compile_press. go. Qed.
Lemma nf_trackers lib j p : nf (new_trackers lib j p).
Proof. unfold new_trackers, get_all_resource_settings, get_all_combo_breakers. go. Qed.
#[local] Hint Resolve nf_cast nf_recast nf_skill_times nf_compile_press nf_trackers : nf.
Lemma nf_follow_up s a tg sm ifu : nf (process_follow_up s a tg sm ifu).
Proof. unfold process_follow_up, process_non_dot_follow_up. go. Qed.
#[local] Hint Resolve nf_follow_up : nf.
Lemma nf_process_skill st sm t s m bu tg : nf (process_skill st sm t s m bu tg). Proof. unfold process_skill. go. Qed.
#[local] Hint Resolve nf_process_skill : nf.
Lemma nf_process_timed st p x : nf (process_timed st p x). Proof. unfold process_timed. go. Qed.
Lemma nf_process_seq st p x : nf (process_seq st p x). Proof. unfold process_seq. go. Qed.
Lemma nf_timed_order l : nf (timed_order l).
Proof. unfold timed_order. apply nf_drain; [apply nf_timed_lt|]. rewrite (Permutation_length (sort_by_perm tm_time l)). lia. Qed.
#[local] Hint Resolve nf_process_timed nf_process_seq nf_timed_order : nf.
Lemma nf_q_timed b qu d pr s : nf (process_q_timed b qu d pr s). Proof. unfold process_q_timed. go. Qed.
Lemma nf_q_sequence b qu d pr s : nf (process_q_sequence b qu d pr s). Proof. unfold process_q_sequence. go. Qed.
Lemma nf_dots s d l qu : nf (process_all_dots s d l qu).
Proof.
  unfold process_all_dots, add_dot, add_dot_window, add_tick. go.
Qed.
#[local] Hint Resolve nf_q_timed nf_q_sequence nf_dots : nf.
Lemma nf_first_damage qu : nf (get_first_damage_time qu).
Proof. unfold get_first_damage_time, first_damage_step. go. Qed.
#[local] Hint Resolve nf_first_damage : nf.
Lemma nf_shift qu pr : nf (shift_timelines qu pr).
Proof. unfold shift_timelines, shift_event. go. Qed.
Lemma nf_downtime w qu : nf (remove_damage_during_downtime w qu).
Proof. unfold remove_damage_during_downtime, downtime_event, keep_target. go. Qed.
#[local] Hint Resolve nf_shift nf_downtime : nf.

Lemma nf_speed_timeline qu : nf (speed_timeline qu). Proof. unfold speed_timeline. go. Qed.
Lemma nf_applicable b tl t s tg : nf (applicable_effects b tl t s tg).
Proof. unfold applicable_effects, get_all_resource_settings. go. Qed.
Lemma nf_periods b : nf (get_no_auto_periods b).
Proof.
  unfold get_no_auto_periods. go; [apply nf_drain; [apply nf_timed_lt | lia]|]. unfold no_auto_step. go.
Qed.
Lemma nf_next_auto w ps t : nf (next_auto_time w ps t). Proof. unfold next_auto_time, as_int. go. Qed.
Lemma nf_shorten l : nf (shorten_sequence l). Proof. unfold shorten_sequence. go. Qed.
Lemma nf_auto_skill lib j : nf (auto_skill_of lib j). Proof. unfold auto_skill_of, has_skill, get_skill. go. Qed.
Lemma nf_auto_delay s : nf (auto_delay_of s). Proof. unfold auto_delay_of. go. Qed.
#[local] Hint Resolve nf_speed_timeline nf_applicable nf_periods nf_next_auto nf_shorten nf_auto_skill nf_auto_delay : nf.

(** ** The auto attacks *)

(** Some auto is followed by the next after a delay shorter than 10 ms. *)
Definition fast_auto (b : builder) (base : list event) (auto : skill) (delay : Z) : Prop :=
  exists calls t buffs debuffs,
    auto_effects b (base ++ map entry (map (hit_call auto delay) calls)) t auto buffs debuffs
    /\ hasted_delay (b_stats b) buffs debuffs < 10.

Section Loop.
  Variables (b : builder) (w : windows) (base : list event) (auto : skill) (delay last : Z).
  Hypothesis Hw : forall target, windows_for w target = windows_of b target.
  Let c := with_windows b w.
  Let wd := qtrunc (fmul (q 1000) (st_weapon_delay (b_stats b))).

  Lemma auto_loop_fuel_enough stamps fuel : forall qu snapshot ind done,
    Permutation (map anon (q_heap qu)) (base ++ map entry (map (hit_call auto delay) done)) ->
    last - (snapshot + delay) < 10 * Z.of_nat fuel ->
    auto_loop fuel c stamps auto delay wd last qu snapshot ind = Err OutOfFuel ->
    fast_auto b base auto delay.
  Proof.
    induction fuel as [|fuel IH]; intros qu snapshot ind done P F; cbn [auto_loop].
    - destruct (Z.ltb_spec (snapshot + delay) last) as [L|L]; [lia | discriminate].
    - destruct (Z.ltb_spec (snapshot + delay) last) as [L|L]; cbn [negb]; [|discriminate].
      destruct (of_option _ (nth_error _ _)) as [[t0 target]|e] eqn:E; cbn [bind];
        [|intros X; injection X as ->; destruct (nth_error _ _); discriminate E].
      destruct (q_add_new _ _ _ _ _ _ _ _) as [q1|e] eqn:E0; cbn [bind];
        [|intros X; injection X as ->; destruct (nf_q_add_new _ _ _ _ _ _ _ _ E0)].
      destruct (speed_timeline q1) as [tl|e] eqn:E1; cbn [bind]; [|intros X; injection X as ->; destruct (nf_speed_timeline _ E1)].
      destruct (applicable_effects _ _ _ _ _) as [[bu de]|e] eqn:E2; cbn [bind];
        [|intros X; injection X as ->; destruct (nf_applicable _ _ _ _ _ E2)].
      destruct (get_no_auto_periods c) as [ps|e] eqn:E3; cbn [bind]; [|intros X; injection X as ->; destruct (nf_periods _ E3)].
      change (truncate_to_digit2 _) with (hasted_delay (b_stats b) bu de) in *.
      set (g := hasted_delay (b_stats b) bu de) in *.
      destruct (next_auto_time _ _ _) as [nxt|e] eqn:E4; cbn [bind]; [|intros X; injection X as ->; destruct (nf_next_auto _ _ _ E4)].
      set (h := mkHit snapshot target g).
      assert (Q1 : api_add qu (hit_call auto delay h) = Ok q1) by exact E0.
      assert (P1 : Permutation (map anon (q_heap q1)) (base ++ map entry (map (hit_call auto delay) (done ++ [h])))).
      { assert (F1 : foldM api_add [hit_call auto delay h] qu = Ok q1) by (cbn [foldM]; rewrite Q1; reflexivity).
        apply adds_bag in F1. rewrite F1, P, !map_app. rewrite app_assoc. reflexivity. }
      assert (Ef : auto_effects b (base ++ map entry (map (hit_call auto delay) (done ++ [h]))) snapshot auto bu de).
      { eapply applicable_effects_spec; [exact E1 | exact P1 | exact E2]. }
      destruct (Z_lt_le_dec g 10) as [G|G].
      { intros _. exists (done ++ [h])%list, snapshot, bu, de. split; [exact Ef | exact G]. }
      destruct nxt as [t'|]; [|discriminate]. intros H.
      assert (Nx : next_auto b target (snapshot + g) (Fin t')).
      { destruct (next_auto_time_spec _ _ _ _ E4) as (t1 & N1 & N2). exists t1, ps.
        split; [rewrite <- Hw; exact N1|]. split; [exact E3 | exact N2]. }
      apply next_auto_le in Nx. refine (IH q1 t' _ _ P1 _ H). lia.
  Qed.
End Loop.

Lemma auto_fuel_bound first last : last - first < 10 * Z.of_nat (auto_fuel first last).
Proof.
  unfold auto_fuel. destruct (Z_lt_le_dec (last - first) 0) as [L|L]; [lia|].
  pose proof (Z.div_pos (last - first) 10 L ltac:(lia)). rewrite Z2Nat.id by lia.
  pose proof (Z.div_mod (last - first) 10 ltac:(lia)). pose proof (Z.mod_pos_bound (last - first) 10 ltac:(lia)). lia.
Qed.

Ltac nf_case H := let E := fresh "E" in let e := fresh "e" in
  match type of H with bind ?r _ = Err OutOfFuel =>
    destruct r as [?|e] eqn:E; cbn [bind] in H;
    [|exfalso; injection H as ->; revert E; match goal with |- ?r = Err OutOfFuel -> False => change (nf r) end; go]
  end.

Lemma no_fuel_autos b w presses last0 qu :
  (forall target, windows_for w target = windows_of b target) ->
  add_autos (with_windows b w) presses last0 qu = Err OutOfFuel ->
  exists au delay, auto_skill b au /\ fast_auto b (map anon (q_heap qu)) au delay.
Proof.
  intros Hw H. unfold add_autos in H. nf_case H. rename a into short. nf_case H. rename a into au. nf_case H. nf_case H. rename a0 into first.
  nf_case H. rename a0 into delay. nf_case H. rename a0 into last.
  exists au, delay. split; [apply auto_skill_spec, E0|].
  refine (auto_loop_fuel_enough b w (map anon (q_heap qu)) au delay last Hw _ _ _ _ _ [] _ _ H).
  - cbn. rewrite app_nil_r. reflexivity.
  - apply auto_fuel_bound.
Qed.

(** A run that does not end. *)
Lemma endless_run b :
  get_skill_timing b = Err OutOfFuel ->
  b_autos b = true
  /\ exists au evs t buffs debuffs,
       auto_skill b au /\ auto_effects b evs t au buffs debuffs /\ hasted_delay (b_stats b) buffs debuffs < 10.
Proof.
  unfold get_skill_timing. intros H. nf_case H. nf_case H. nf_case H.
  cbn [b_autos with_windows b_windows b_fight_start b_ignore_trailing] in *.
  assert (N : b_autos b = true /\ add_autos (with_windows b (process_downtime_windows b)) (pa_stamps a0)
     (if b_ignore_trailing b then get_last_event_time (si_queue (pa_sim a0)) else None) a1 = Err OutOfFuel).
  { destruct (b_autos b).
    - split; [reflexivity|]. destruct (add_autos _ _ _ _) as [q4|e]; cbn [bind] in H; [|injection H as ->; reflexivity]. exfalso. nf_case H. destruct a2 as [q5 pr]. nf_case H. discriminate H.
    - exfalso. cbn [bind] in H. nf_case H. destruct a2 as [q5 pr]. nf_case H. discriminate H. }
  destruct N as (A & N). split; [exact A|]. apply no_fuel_autos in N as (au & delay & S & calls & t & bu & de & Ef & G); [|apply windows_for_of].
  eexists au, _, t, bu, de. split; [exact S|]. split; [exact Ef | exact G].
Qed.
