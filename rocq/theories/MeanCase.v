(** * Cases for C91 *)

From Coq Require Import ZArith QArith Qround List String Bool Lqa.
From Verif Require Import Base BaseFacts Float Types Lookup StatusEffect Stats Library Events Rotation DamageBuild Damage Fixtures Relabel GameLib SpecHit SpecTimeline SpecRun SpecLater SpecReplay SpecShuffle SpecIdle
  SpecCause SpecMove SpecNeed SpecGear SafeCase HitProps GearCase ShuffleCase SpecBuff BuffCase BuffShip SpecMean.
Import ListNotations.
Open Scope string_scope.
Open Scope Z_scope.

Lemma rates_all st l : forallb (rates_okb st) l = true -> Forall (unit_rates st) l.
Proof. intros H. apply Forall_forall. intros x I. rewrite forallb_forall in H. apply rates_okb_sound, H, I. Qed.
Lemma half_draws_fair : fair half_draws.
Proof. intros i k. cbn. lra. Qed.

(** More crit and direct hit too. *)
Lemma mn_case : better fx_gear better_gear /\ same_pace fx_gear better_gear /\ fair half_draws
  /\ hits_with fx_stats fx_library None true false None (RWTuple []) DEFAULT_TARGET gr_calls = Ok gr_hits
  /\ Forall (unit_rates fx_stats) gr_hits /\ Forall (unit_rates (gr_stats better_gear)) gr_hits
  /\ rmap (fun r => map Qfloor (rp_expected r)) (gr_report fx_gear) = Ok [18612; 3898; 3719]
  /\ rmap (fun r => map Qfloor (rp_expected r)) (gr_report better_gear) = Ok [19755; 4148; 3950].
Proof.
  split; [vm_compute; repeat split; discriminate|]. split; [repeat split|]. split; [exact half_draws_fair|]. split; [vm_compute; reflexivity|].
  split; [apply rates_all; vm_compute; reflexivity|]. split; [apply rates_all; vm_compute; reflexivity|]. split; vm_compute; reflexivity.
Qed.

(** The party buffs of C86, two of which raise the crit rate. *)
Definition ms_check : res (bool * bool * Z * Z) :=
  let* st := stats_of (case_gear "WAR") in
  let* b0 := rb_init st case_lib None false false (Some 0) (RWTuple []) "Boss" in
  let* h := hits_with st case_lib None false false (Some 0) (RWTuple []) "Boss" (unsupported bs_extra b0 bs_l) in
  let* h' := hits_with st case_lib None false false (Some 0) (RWTuple []) "Boss" bs_l in
  let* r := report_with st case_lib None false false (Some 0) (RWTuple []) "Boss" (unsupported bs_extra b0 bs_l) 0 half_draws half_draws in
  let* r' := report_with st case_lib None false false (Some 0) (RWTuple []) "Boss" bs_l 0 half_draws half_draws in
  Ok (forallb (rates_okb st) h, forallb (rates_okb st) h', Qfloor (total (rp_expected r)), Qfloor (total (rp_expected r'))).
Lemma ms_checked : ms_check = Ok (true, true, 50580, 56883).
Proof. vm_compute. reflexivity. Qed.
Lemma ms_case : exists st b0 b r hits hits' rp rp',
  create_skill_library "7.05" 100 = Ok case_lib /\ gear_nonneg (case_gear "WAR") /\ stats_of (case_gear "WAR") = Ok st
  /\ (forall n, bs_extra n = true -> In n shipped_buffs)
  /\ rb_init st case_lib None false false (Some 0) (RWTuple []) "Boss" = Ok b0 /\ follow b0 bs_l = Ok b
  /\ (forall x, In x (b_sequence b) -> bs_extra (sk_name (sq_skill x)) = false) /\ distinct_times b
  /\ get_skill_timing b = Ok r /\ Forall orderly (timeline r) /\ distinct_places (timeline r)
  /\ hits_with st case_lib None false false (Some 0) (RWTuple []) "Boss" (unsupported bs_extra b0 bs_l) = Ok hits
  /\ hits_with st case_lib None false false (Some 0) (RWTuple []) "Boss" bs_l = Ok hits'
  /\ Forall (unit_rates st) hits /\ Forall (unit_rates st) hits'
  /\ report_with st case_lib None false false (Some 0) (RWTuple []) "Boss" (unsupported bs_extra b0 bs_l) 0 half_draws half_draws = Ok rp
  /\ report_with st case_lib None false false (Some 0) (RWTuple []) "Boss" bs_l 0 half_draws half_draws = Ok rp'
  /\ Qfloor (total (rp_expected rp)) = 50580 /\ Qfloor (total (rp_expected rp')) = 56883.
Proof.
  destruct bs_case as (st & b0 & b & r & h & h' & A & B & C & D & E & F & G & H & I & J & K & L & M & _).
  pose proof ms_checked as X. unfold ms_check in X. 
  apply bind_ok in X as (st0 & C0 & X). rewrite C in C0. injection C0 as <-. apply bind_ok in X as (b1 & E0 & X). rewrite E in E0. injection E0 as <-.
  apply bind_ok in X as (h1 & L0 & X). rewrite L in L0. injection L0 as <-. apply bind_ok in X as (h2 & M0 & X). rewrite M in M0. injection M0 as <-.
  apply bind_ok in X as (rp & R & X). apply bind_ok in X as (rp' & R' & X).
  apply (f_equal (fun x => match x with Ok y => y | Err _ => (false, false, 0, 0) end)) in X. cbn beta iota in X.
  pose proof (f_equal (fun x => fst (fst (fst x))) X) as X1. pose proof (f_equal (fun x => snd (fst (fst x))) X) as X2.
  pose proof (f_equal (fun x => snd (fst x)) X) as X3. pose proof (f_equal snd X) as X4. cbn [fst snd] in X1, X2, X3, X4. clear X.
  exists st, b0, b, r, h, h', rp, rp'. split; [exact A|]. split; [exact B|]. split; [exact C|]. split; [exact D|]. split; [exact E|]. split; [exact F|]. split; [exact G|]. split; [exact H|].
  split; [exact I|]. split; [exact J|]. split; [exact K|]. split; [exact L|]. split; [exact M|]. split; [apply rates_all, X1|]. split; [apply rates_all, X2|].
  split; [exact R|]. split; [exact R'|]. split; [exact X3|exact X4].
Qed.

(** Gear so weak that crits do nothing. *)
Definition weak_gear (crit : Z) : gear := mkGear 0 (Some (dec 344 100)) 0 0 (q 1620) (q crit) (q 708) "test_job" "test" None 0 None 90.
Definition weak_hits : list instance :=
  match hits_with fx_stats fx_library None false false None (RWTuple []) DEFAULT_TARGET [NextPress (tap "Quick" None) 1] with Ok l => l | Err _ => [] end.
Definition weak_check (crit : Z) : res (list instance * bool * Q) :=
  let* st := stats_of (weak_gear crit) in
  let* h := hits_with st fx_library None false false None (RWTuple []) DEFAULT_TARGET [NextPress (tap "Quick" None) 1] in
  let* r := report_with st fx_library None false false None (RWTuple []) DEFAULT_TARGET [NextPress (tap "Quick" None) 1] 0 half_draws half_draws in
  Ok (h, forallb (rates_okb st) h, Qred (total (rp_expected r))).
Lemma weak_checked : weak_check 450 = Ok (weak_hits, true, 288230376151711745 # 576460752303423488) /\ weak_check 460 = Ok (weak_hits, true, 144115188075855865 # 288230376151711744).
Proof. split; vm_compute; reflexivity. Qed.
Lemma weak_known crit x : weak_check crit = Ok (weak_hits, true, x) -> exists st r, stats_of (weak_gear crit) = Ok st
  /\ hits_with st fx_library None false false None (RWTuple []) DEFAULT_TARGET [NextPress (tap "Quick" None) 1] = Ok weak_hits
  /\ report_with st fx_library None false false None (RWTuple []) DEFAULT_TARGET [NextPress (tap "Quick" None) 1] 0 half_draws half_draws = Ok r
  /\ Forall (unit_rates st) weak_hits /\ (total (rp_expected r) == x)%Q.
Proof.
  unfold weak_check. intros H. apply bind_ok in H as (st & S & H). apply bind_ok in H as (h & G & H). apply bind_ok in H as (r & R & H). 
  apply (f_equal (fun x => match x with Ok y => y | Err _ => ([], false, 0%Q) end)) in H. cbn beta iota in H.
  pose proof (f_equal (fun x => fst (fst x)) H) as H1. pose proof (f_equal (fun x => snd (fst x)) H) as U. pose proof (f_equal snd H) as H3. cbn [fst snd] in H1, U, H3. clear H. rewrite H1 in G, U.
  exists st, r. split; [exact S|]. split; [exact G|]. split; [exact R|]. split; [apply rates_all, U|]. rewrite <- H3. symmetry. apply Qred_correct.
Qed.
Lemma exact_refuted : exists g g' st st' lib snap autos trailing start w target l hits n u u' r r',
  sane_library lib /\ gear_nonneg g /\ better g g' /\ same_pace g g' /\ stats_of g = Ok st /\ stats_of g' = Ok st'
  /\ hits_with st lib snap autos trailing start w target l = Ok hits /\ fair u /\ (forall i j, drawn (u' i j))
  /\ Forall (unit_rates st) hits /\ Forall (unit_rates st') hits
  /\ report_with st lib snap autos trailing start w target l n u u' = Ok r /\ report_with st' lib snap autos trailing start w target l n u u' = Ok r'
  /\ (total (rp_expected r') < total (rp_expected r))%Q.
Proof.
  destruct weak_checked as (K & K'). destruct (weak_known _ _ K) as (st & r & A & B & C & D & E). destruct (weak_known _ _ K') as (st' & r' & A' & B' & C' & D' & E').
  exists (weak_gear 450), (weak_gear 460), st, st', fx_library, None, false, false, None, (RWTuple []), DEFAULT_TARGET, [NextPress (tap "Quick" None) 1], weak_hits, 0%nat, half_draws, half_draws, r, r'.
  split; [apply gr_gear|]. split; [vm_compute; repeat split; discriminate|]. split; [vm_compute; repeat split; discriminate|]. split; [repeat split|]. split; [exact A|]. split; [exact A'|].
  split; [exact B|]. split; [exact half_draws_fair|]. split; [intros i j; cbn; lra|]. split; [exact D|]. split; [exact D'|]. split; [exact C|]. split; [exact C'|].
  rewrite E, E'. reflexivity.
Qed.
