(** * A rotation of shipped skills that goes on (C16, C71) *)

From Coq Require Import ZArith QArith Qround List String Bool Lia Permutation.
From Verif Require Import Base BaseFacts Float Types Lookup Stats Library Events Rotation DamageBuild GameLib SpecTimeline SpecHit SpecRun SpecLater SpecReplay SpecShuffle SpecIdle SpecCause SpecGear SettingsFacts IdleFacts LaterCase SafeCase IdleGame
  ShuffleCase CauseCase SpecBuff BuffCase BuffShip TrailCase TrailShip SpecNeed Damage HitProps GearCase SpecMean MeanCase.
Import ListNotations.
Open Scope string_scope.
Open Scope Z_scope.

Definition tk_l : list instr := [NextPress (tap "Heavy Swing" None) 1; PressAt 1 (by_job "SCH" "Chain Stratagem"); PressAt 3 (by_job "SCH" "Biolysis")].
Definition tk_again (b : builder) : res builder := add b (q 10) "Biolysis" None (Some "SCH") None.
Definition tk_check : res (bool * bool * list Z * list press * list press * list (Z * string) * list (Z * string)) :=
  let* st := stats_of (case_gear "WAR") in
  let* b0 := rb_init st case_lib None false false (Some 0) (RWTuple []) "Boss" in
  let* b := follow b0 tk_l in
  let* b' := tk_again b in
  let* r := get_skill_timing b in
  let* r' := get_skill_timing b' in
  Ok (bare b && bare b', match b_fight_start b with Some _ => negb (b_autos b) && negb (b_ignore_trailing b) | None => false end, map tm_time (b_timed b),
      get_button_press_timing r, get_button_press_timing r', event_times (timeline r), event_times (timeline r')).
Definition tk_presses : list press := [mkPress 0 "Heavy Swing" "" ""; mkPress 1000 "Chain Stratagem" "SCH" ""; mkPress 3000 "Biolysis" "SCH" ""].
Definition tk_further : list press := [mkPress 10000 "Biolysis" "SCH" ""].
Definition tk_before : list (Z * string) := [(532, "Heavy Swing"); (1800, "Chain Stratagem"); (3670, "Biolysis"); (3670, "Biolysis (dot)"); (6670, "Biolysis (dot)"); (9670, "Biolysis (dot)")].
Definition tk_alone : list (Z * string) := [(12670, "Biolysis (dot)"); (15670, "Biolysis (dot)"); (18670, "Biolysis (dot)"); (21670, "Biolysis (dot)"); (24670, "Biolysis (dot)"); (27670, "Biolysis (dot)"); (30670, "Biolysis (dot)")].
Definition tk_renewed : list (Z * string) :=
  [(10670, "Biolysis"); (10670, "Biolysis (dot)"); (13670, "Biolysis (dot)"); (16670, "Biolysis (dot)"); (19670, "Biolysis (dot)"); (22670, "Biolysis (dot)");
   (25670, "Biolysis (dot)"); (28670, "Biolysis (dot)"); (31670, "Biolysis (dot)"); (34670, "Biolysis (dot)"); (37670, "Biolysis (dot)")].
Lemma tk_checked : tk_check = Ok (true, true, [1000; 3000], tk_presses, (tk_presses ++ tk_further)%list, (tk_before ++ tk_alone)%list, (tk_before ++ tk_renewed)%list).
Proof. vm_compute. reflexivity. Qed.
Lemma settings_sound b : match b_fight_start b with Some _ => negb (b_autos b) && negb (b_ignore_trailing b) | None => false end = true ->
  b_fight_start b <> None /\ b_autos b = false /\ b_ignore_trailing b = false.
Proof. destruct (b_fight_start b); [|discriminate]. destruct (b_autos b), (b_ignore_trailing b); try discriminate. intros _. repeat split. discriminate. Qed.
Lemma tk_case : exists st b0 b b' r r',
  create_skill_library "7.05" 100 = Ok case_lib /\ rb_init st case_lib None false false (Some 0) (RWTuple []) "Boss" = Ok b0 /\ follow b0 tk_l = Ok b
  /\ b_library b = case_lib /\ built b /\ distinct_times b /\ continued b b' /\ b_fight_start b <> None /\ b_autos b = false /\ b_ignore_trailing b = false /\ exact_ticks b /\ exact_ticks b'
  /\ get_skill_timing b = Ok r /\ get_skill_timing b' = Ok r' /\ more_presses r r' tk_further /\ (forall p, In p tk_further -> 10000 <= pr_time p)
  /\ event_times (timeline r) = (tk_before ++ tk_alone)%list /\ event_times (timeline r') = (tk_before ++ tk_renewed)%list.
Proof.
  pose proof tk_checked as K. unfold tk_check in K. apply bind_ok in K as (st & S & K). apply bind_ok in K as (b0 & I & K).
  apply bind_ok in K as (b & F & K). apply bind_ok in K as (b' & A & K). apply bind_ok in K as (r & R & K). apply bind_ok in K as (r' & R' & K).
  apply (f_equal (fun x => match x with Ok y => y | Err _ => (false, false, [], [], [], [], []) end)) in K. cbn beta iota in K.
  pose proof (f_equal (fun x => fst (fst (fst (fst (fst (fst x)))))) K) as K1. pose proof (f_equal (fun x => snd (fst (fst (fst (fst (fst x)))))) K) as K2.
  pose proof (f_equal (fun x => snd (fst (fst (fst (fst x))))) K) as K3. pose proof (f_equal (fun x => snd (fst (fst (fst x)))) K) as K4.
  pose proof (f_equal (fun x => snd (fst (fst x))) K) as K5. pose proof (f_equal (fun x => snd (fst x)) K) as K6. pose proof (f_equal snd K) as K7. cbn [fst snd] in K1, K2, K3, K4, K5, K6, K7. clear K.
  apply andb_true_iff in K1 as (K1 & K1'). apply settings_sound in K2 as (N1 & N2 & N3).
  exists st, b0, b, b', r, r'. split; [exact case_created|]. split; [exact I|]. split; [exact F|].
  split. { destruct (init_keeps _ _ _ _ _ _ _ _ _ I) as (_ & E & _). rewrite (follow_library _ _ _ F). exact E. }
  split; [exact (follow_built _ _ _ (built_init _ _ _ _ _ _ _ _ _ I) F)|].
  split; [unfold distinct_times; rewrite K3; repeat constructor; simpl; intuition discriminate|].
  split. { unfold tk_again in A. refine (cont_add b b (q 10) "Biolysis" None (Some "SCH") None b' (cont_here b) _ A). apply later_seconds; [|vm_compute; reflexivity]. intros x Ix. apply (in_map tm_time) in Ix. rewrite K3 in Ix. destruct Ix as [<-|[<-|[]]]; reflexivity. }
  split; [exact N1|]. split; [exact N2|]. split; [exact N3|]. split; [apply (bare_sound b K1)|]. split; [apply (bare_sound b' K1')|].
  split; [exact R|]. split; [exact R'|]. split; [unfold more_presses; rewrite K4, K5; reflexivity|]. split; [intros p [<-|[]]; discriminate|]. split; [exact K6|exact K7].
Qed.

(** ** The expected damage of the rotation of C92, with and without the ticks after its end *)
Notation tr_report st ig := (report_with st case_lib None false ig (Some 0) (RWTuple []) "Boss" ts_l 0 half_draws half_draws).
Definition tr_check : res (bool * Z * Z) :=
  let* st := stats_of (case_gear "WAR") in
  let* h' := hits_with st case_lib None false false (Some 0) (RWTuple []) "Boss" ts_l in
  let* r := tr_report st true in
  let* r' := tr_report st false in
  Ok (forallb (rates_okb st) h', Qfloor (total (rp_expected r)), Qfloor (total (rp_expected r'))).
Lemma tr_checked : tr_check = Ok (true, 38258, 43311).
Proof. vm_compute. reflexivity. Qed.
Lemma tr_case : exists st b0 b r hits hits' b1 rp rp',
  create_skill_library "7.05" 100 = Ok case_lib /\ gear_nonneg (case_gear "WAR") /\ stats_of (case_gear "WAR") = Ok st
  /\ rb_init st case_lib None false false (Some 0) (RWTuple []) "Boss" = Ok b0 /\ follow b0 ts_l = Ok b /\ no_windows b /\ exact_ticks b
  /\ get_skill_timing b = Ok r /\ Forall orderly (timeline r) /\ distinct_places (timeline r)
  /\ hits_with st case_lib None false true (Some 0) (RWTuple []) "Boss" ts_l = Ok hits
  /\ hits_with st case_lib None false false (Some 0) (RWTuple []) "Boss" ts_l = Ok hits'
  /\ rotation_with st case_lib None false true (Some 0) (RWTuple []) "Boss" ts_l = Ok b1 /\ fair half_draws /\ Forall (unit_rates st) hits'
  /\ report_with st case_lib None false true (Some 0) (RWTuple []) "Boss" ts_l 0 half_draws half_draws = Ok rp
  /\ report_with st case_lib None false false (Some 0) (RWTuple []) "Boss" ts_l 0 half_draws half_draws = Ok rp'
  /\ Qfloor (total (rp_expected rp)) = 38258 /\ Qfloor (total (rp_expected rp')) = 43311.
Proof.
  destruct ts_full as (st & b0 & b & r & h & h' & A & B & C & D & E & F & G & H & I & J & K & L & _).
  pose proof tr_checked as X. unfold tr_check in X. apply bind_ok in X as (st0 & C0 & X). rewrite C in C0. injection C0 as <-.
  apply bind_ok in X as (h1 & L0 & X). rewrite L in L0. injection L0 as <-. apply bind_ok in X as (rp & R & X). apply bind_ok in X as (rp' & R' & X).
  apply (f_equal (fun x => match x with Ok y => y | Err _ => (false, 0, 0) end)) in X. cbn beta iota in X.
  pose proof (f_equal (fun x => fst (fst x)) X) as X1. pose proof (f_equal (fun x => snd (fst x)) X) as X2. pose proof (f_equal snd X) as X3. cbn [fst snd] in X1, X2, X3. clear X.
  assert (B1 : exists b1, rotation_with st case_lib None false true (Some 0) (RWTuple []) "Boss" ts_l = Ok b1).
  { pose proof K as K'. unfold hits_with in K'. apply bind_ok in K' as (y & Y & K'). apply bind_ok in K' as (z & Z' & K'). exists z. unfold rotation_with. rewrite Y. exact Z'. }
  destruct B1 as (b1 & B1).
  exists st, b0, b, r, h, h', b1, rp, rp'. split; [exact A|]. split; [exact B|]. split; [exact C|]. split; [exact D|]. split; [exact E|]. split; [exact F|]. split; [exact G|]. split; [exact H|].
  split; [exact I|]. split; [exact J|]. split; [exact K|]. split; [exact L|]. split; [exact B1|]. split; [exact half_draws_fair|]. split; [apply rates_all, X1|].
  split; [exact R|]. split; [exact R'|]. split; [exact X2|exact X3].
Qed.
