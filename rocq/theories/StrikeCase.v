(** * Rotations for C87 *)

From Coq Require Import ZArith QArith List String Bool Lia Permutation.
From Verif Require Import Base BaseFacts Float Strings Types Lookup Stats Library StatusEffect Events Rotation DamageBuild Fixtures GameLib SpecHit SpecGame SpecPlay SpecTimeline SpecRun SpecLater
  SpecReplay SpecShuffle SpecAuto SpecIdle SpecCause SpecGear SettingsFacts RunCounter RunProps DetermineFacts PlayFacts ReplayCase ShuffleCase CauseCase IdleCase SafeCase SpecBuff BuffCase BuffShip SpecStrike.
Import ListNotations.
Open Scope string_scope.
Open Scope Z_scope.

(** A rotation begun at [Some 0], without autos; its hits, with or without them. *)
Notation sk_start lib := (rb_init fx_stats lib None false false (Some 0) (RWTuple []) DEFAULT_TARGET).
Definition sk_run (lib : library) (l : list instr) : res builder := let* b := sk_start lib in follow b l.
Notation sk_hits lib autos l := (hits_with fx_stats lib None autos false (Some 0) (RWTuple []) DEFAULT_TARGET l).

(** *** Autos among buffed hits and damage over time. *)
Definition sa_b0 : builder := fst (ran (sk_start fx_library)).
Definition sa_b : builder := fst (ran (sk_run fx_library bf_l)).
Definition sa_r : builder := snd (ran (sk_run fx_library bf_l)).
Definition sa_hits : list instance := hits_of (sk_hits fx_library false bf_l).
Definition sa_more : list instance := hits_of (sk_hits fx_library true bf_l).
Lemma sa_ok : sk_start fx_library = Ok sa_b0 /\ follow sa_b0 bf_l = Ok sa_b /\ get_skill_timing sa_b = Ok sa_r
  /\ sk_hits fx_library false bf_l = Ok sa_hits /\ sk_hits fx_library true bf_l = Ok sa_more.
Proof. split; [vm_compute; reflexivity|]. split; [vm_compute; reflexivity|]. split; [vm_compute; reflexivity|]. split; vm_compute; reflexivity. Qed.
Lemma sa_skills : skills_of sa_b = [fx_hit; fx_hit; fx_buff; fx_burn; fx_ogcd; fx_debuff; fx_ogcd]
  /\ get_all_resource_settings (b_library sa_b) (st_job (b_stats sa_b)) = Ok [].
Proof. split; vm_compute; reflexivity. Qed.
Lemma sa_auto : has_skill (b_library sa_b) "Shot" (st_job (b_stats sa_b)) = Ok false /\ get_skill (b_library sa_b) "Auto" (st_job (b_stats sa_b)) = Ok fx_auto.
Proof. split; vm_compute; reflexivity. Qed.
Lemma fx_strikes : grants_nothing fx_auto /\ grants_nothing fx_ogcd.
Proof. split; intros m; repeat split. Qed.
Lemma the_auto b : has_skill (b_library b) "Shot" (st_job (b_stats b)) = Ok false -> get_skill (b_library b) "Auto" (st_job (b_stats b)) = Ok fx_auto ->
  forall au, auto_skill b au -> au = fx_auto.
Proof. intros H G au [[H' _]|[_ G']]; [rewrite H in H'; discriminate H' | rewrite G in G'; injection G' as <-; reflexivity]. Qed.
Lemma sa_uncounted n : uncounted sa_b n.
Proof.
  destruct sa_skills as (S & R). apply (plain_uncounted _ _ _ S R). repeat constructor; (eexists; split; [reflexivity|]; split; repeat constructor).
Qed.
Lemma sa_plain : plain_autos sa_b.
Proof.
  destruct sa_auto as (H & G). intros au A. rewrite (the_auto _ H G au A). split; [exact (proj1 fx_strikes)|]. split; [apply sa_uncounted|].
  intros spec E. injection E as <-. vm_compute. discriminate.
Qed.
Lemma sa_timely : timely sa_b.
Proof. left. vm_compute. discriminate. Qed.
Lemma sa_tidy : Forall orderly (timeline sa_r) /\ distinct_places (timeline sa_r).
Proof. split; [apply orderlyb_sound; vm_compute; reflexivity | apply apart_sound; vm_compute; reflexivity]. Qed.
Definition boosted : Q := dec 110 100.
Definition weakened : Q := Qred (dec 110 100 * dec 105 100).
Lemma sa_shown :
  map bonuses sa_hits = [(500, "Hit", 1%Q); (900, "Burn (tick)", boosted); (900, "Burn", boosted); (2100, "Quick", boosted); (2940, "Hit", boosted);
    (3900, "Burn (tick)", boosted); (6200, "Quick", weakened); (6900, "Burn (tick)", boosted); (9900, "Burn (tick)", boosted); (12900, "Burn (tick)", boosted)]
  /\ map bonuses sa_more = [(500, "Hit", 1%Q); (600, "Auto", boosted); (900, "Burn (tick)", boosted); (900, "Burn", boosted); (2100, "Quick", boosted); (2940, "Hit", boosted);
    (3900, "Burn (tick)", boosted); (4040, "Auto", boosted); (6200, "Quick", weakened); (6900, "Burn (tick)", boosted); (7480, "Auto", weakened); (9900, "Burn (tick)", boosted);
    (10920, "Auto", weakened); (12900, "Burn (tick)", boosted)].
Proof. split; vm_compute; reflexivity. Qed.

(** *** One attack less: the "Quick" at 2.1 of the same rotation. *)
Definition st_l1 : list instr := [PressAt 0 (tap "Boost" None); PressAt (dec 5 10) (tap "Burn" None); NextPress (tap "Hit" None) 2].
Definition st_l2 : list instr := [PressAt 4 (tap "Weaken" None); PressAt (dec 62 10) (tap "Quick" None)].
Definition st_quick : call := tap "Quick" None.
Lemma st_split : bf_l = (st_l1 ++ PressAt (dec 21 10) st_quick :: st_l2)%list.
Proof. reflexivity. Qed.
Definition st_fewer : list instance := hits_of (sk_hits fx_library false (st_l1 ++ st_l2)).
Lemma st_ok : distinct_times sa_b /\ get_skill (b_library sa_b0) (c_name st_quick) (match c_job st_quick with Some j => j | None => st_job (b_stats sa_b0) end) = Ok fx_ogcd /\ sk_hits fx_library false (st_l1 ++ st_l2) = Ok st_fewer.
Proof. split; [vm_compute; repeat constructor; simpl; intuition discriminate|]. split; vm_compute; reflexivity. Qed.
Lemma st_shown : map bonuses st_fewer = [(500, "Hit", 1%Q); (900, "Burn (tick)", boosted); (900, "Burn", boosted); (2940, "Hit", boosted);
    (3900, "Burn (tick)", boosted); (6200, "Quick", weakened); (6900, "Burn (tick)", boosted); (9900, "Burn (tick)", boosted); (12900, "Burn (tick)", boosted)].
Proof. vm_compute. reflexivity. Qed.

(** *** In sequence: an attack between two GCDs. *)
Definition sn_l1 : list instr := [NextPress (tap "Burn" None) 1; NextPress (tap "Boost" None) 1].
Definition sn_l2 : list instr := [NextPress (tap "Hit" None) 2; NextPress (tap "Quick" None) 1].
Definition sn_l : list instr := (sn_l1 ++ NextPress st_quick 1 :: sn_l2)%list.
Definition sn_b1 : builder := fst (ran (sk_run fx_library sn_l1)).
Definition sn_b : builder := fst (ran (sk_run fx_library sn_l)).
Definition sn_r : builder := snd (ran (sk_run fx_library sn_l)).
Definition sn_fewer : list instance := hits_of (sk_hits fx_library false (sn_l1 ++ sn_l2)).
Definition sn_hits : list instance := hits_of (sk_hits fx_library false sn_l).
Lemma sn_ok : follow sa_b0 sn_l1 = Ok sn_b1 /\ follow sa_b0 sn_l = Ok sn_b /\ get_skill_timing sn_b = Ok sn_r
  /\ sk_hits fx_library false (sn_l1 ++ sn_l2) = Ok sn_fewer /\ sk_hits fx_library false sn_l = Ok sn_hits.
Proof. split; [vm_compute; reflexivity|]. split; [vm_compute; reflexivity|]. split; [vm_compute; reflexivity|]. split; vm_compute; reflexivity. Qed.
Lemma sn_skills : skills_of sn_b = [fx_burn; fx_buff; fx_ogcd; fx_hit; fx_hit; fx_ogcd] /\ map sq_skill (b_sequence sn_b) = [fx_burn; fx_buff; fx_ogcd; fx_hit; fx_hit; fx_ogcd] /\ b_timed sn_b = []
  /\ get_all_resource_settings (b_library sn_b) (st_job (b_stats sn_b)) = Ok [].
Proof. split; [vm_compute; reflexivity|]. split; [vm_compute; reflexivity|]. split; vm_compute; reflexivity. Qed.
Lemma sn_uncounted : uncounted sn_b (sk_name fx_ogcd).
Proof.
  destruct sn_skills as (S & _ & _ & R). apply (plain_uncounted _ _ _ S R). repeat constructor; (eexists; split; [reflexivity|]; split; repeat constructor).
Qed.
Lemma sn_locks : nonneg_locks sn_b.
Proof. destruct sn_skills as (_ & S & T & _). apply (fixed_locks _ _ S T). vm_compute. reflexivity. Qed.
Lemma sn_length : List.length (b_sequence sn_b1) = 2%nat.
Proof. vm_compute. reflexivity. Qed.
Lemma sn_log : map (fun p => (pl_time p, busy p, sk_is_GCD (pl_skill p))) (log_of sn_b) = [(0, 650, true); (650, 650, false); (1300, 650, false); (2440, 650, true); (4880, 650, true); (5530, 650, false)].
Proof. vm_compute. reflexivity. Qed.
Lemma sn_log_ok : exists l, sequence_log sn_b = Ok l.
Proof. destruct (sequence_log sn_b) as [l|e] eqn:E; [eauto|]. exfalso. pose proof sn_log as L. unfold log_of in L. rewrite E in L. discriminate L. Qed.
Lemma sn_fits : fits sn_b (List.length (b_sequence sn_b1)).
Proof.
  rewrite sn_length. intros slog tlog p x Pl P X.
  destruct (played_determined _ _ _ _ _ (log_of_played sn_b sn_log_ok (proj1 (proj2 (proj2 sn_skills)))) Pl) as (<- & _).
  pose proof (map_nth_error (fun p => (pl_time p, busy p, sk_is_GCD (pl_skill p))) _ _ P) as P'.
  pose proof (map_nth_error (fun p => (pl_time p, busy p, sk_is_GCD (pl_skill p))) _ _ X) as X'.
  rewrite sn_log in P', X'. cbn [nth_error] in P', X'. injection P' as E1 E2 _. injection X' as E3 _ E5. rewrite <- E1, <- E2, <- E3, <- E5. split; [reflexivity | lia].
Qed.
Lemma sn_tidy : Forall orderly (timeline sn_r) /\ distinct_places (timeline sn_r).
Proof. split; [apply orderlyb_sound; vm_compute; reflexivity | apply apart_sound; vm_compute; reflexivity]. Qed.
Lemma sn_shown :
  map bonuses sn_fewer = [(400, "Burn", 1%Q); (400, "Burn (tick)", 1%Q); (2940, "Hit", boosted); (3400, "Burn (tick)", 1%Q); (5380, "Hit", boosted); (5530, "Quick", boosted);
    (6400, "Burn (tick)", 1%Q); (9400, "Burn (tick)", 1%Q); (12400, "Burn (tick)", 1%Q)]
  /\ map bonuses sn_hits = [(400, "Burn", 1%Q); (400, "Burn (tick)", 1%Q); (1300, "Quick", boosted); (2940, "Hit", boosted); (3400, "Burn (tick)", 1%Q); (5380, "Hit", boosted); (5530, "Quick", boosted);
    (6400, "Burn (tick)", 1%Q); (9400, "Burn (tick)", 1%Q); (12400, "Burn (tick)", 1%Q)].
Proof. split; vm_compute; reflexivity. Qed.

(** *** A buff with one use, for any skill: an auto takes it from the attack it was meant for. *)
Definition sc_l : list instr := [PressAt 0 (tap "Hit" None); PressAt 2 (tap "Charge" None); PressAt 8 (tap "Quick" None)].
Definition sc_b0 : builder := fst (ran (sk_start bc_library)).
Definition sc_b : builder := fst (ran (sk_run bc_library sc_l)).
Definition sc_r : builder := snd (ran (sk_run bc_library sc_l)).
Definition sc_hits : list instance := hits_of (sk_hits bc_library false sc_l).
Definition sc_more : list instance := hits_of (sk_hits bc_library true sc_l).
Lemma sc_ok : sk_start bc_library = Ok sc_b0 /\ follow sc_b0 sc_l = Ok sc_b /\ get_skill_timing sc_b = Ok sc_r
  /\ sk_hits bc_library false sc_l = Ok sc_hits /\ sk_hits bc_library true sc_l = Ok sc_more.
Proof. split; [vm_compute; reflexivity|]. split; [vm_compute; reflexivity|]. split; [vm_compute; reflexivity|]. split; vm_compute; reflexivity. Qed.
Lemma sc_shown : map bonuses sc_hits = [(500, "Hit", 1%Q); (8000, "Quick", dec 150 100)]
  /\ map bonuses sc_more = [(500, "Hit", 1%Q); (600, "Auto", 1%Q); (4040, "Auto", dec 150 100); (7480, "Auto", 1%Q); (8000, "Quick", 1%Q)].
Proof. split; vm_compute; reflexivity. Qed.
Lemma sc_tidy : Forall orderly (timeline sc_r) /\ distinct_places (timeline sc_r).
Proof. split; [apply orderlyb_sound; vm_compute; reflexivity | apply apart_sound; vm_compute; reflexivity]. Qed.
Lemma sc_auto : has_skill (b_library sc_b) "Shot" (st_job (b_stats sc_b)) = Ok false /\ get_skill (b_library sc_b) "Auto" (st_job (b_stats sc_b)) = Ok fx_auto.
Proof. split; vm_compute; reflexivity. Qed.
Lemma bonuses_unnumbered l : map bonuses (map unnumbered l) = map bonuses l.
Proof. rewrite map_map. apply map_ext. intros i. reflexivity. Qed.
Lemma autos_counted : exists st lib snap start w target b0 l b r hits hits',
  rb_init st lib snap false false start w target = Ok b0 /\ follow b0 l = Ok b /\ timely b
  /\ (forall au, auto_skill b au -> grants_nothing au /\ forall spec, sk_timing au = COne spec -> 0 <= application_delay spec)
  /\ get_skill_timing b = Ok r /\ Forall orderly (timeline r) /\ distinct_places (timeline r)
  /\ hits_with st lib snap false false start w target l = Ok hits
  /\ hits_with st lib snap true false start w target l = Ok hits'
  /\ ~ exists own, Permutation (map unnumbered hits') (map unnumbered (own ++ hits)).
Proof.
  destruct sc_ok as (A & B & C & D & E), sc_tidy as (F & G), sc_auto as (H1 & H2), sc_shown as (S1 & S2).
  exists fx_stats, bc_library, None, (Some 0), (RWTuple []), DEFAULT_TARGET, sc_b0, sc_l, sc_b, sc_r, sc_hits, sc_more.
  split; [exact A|]. split; [exact B|]. split; [left; vm_compute; discriminate|].
  split. { intros au Sk. rewrite (the_auto _ H1 H2 au Sk). split; [exact (proj1 fx_strikes)|]. intros spec Es. injection Es as <-. vm_compute. discriminate. }
  split; [exact C|]. split; [exact F|]. split; [exact G|]. split; [exact D|]. split; [exact E|].
  intros (own & P). apply (Permutation_map bonuses) in P. rewrite !bonuses_unnumbered in P. rewrite map_app, S1, S2 in P.
  assert (I : In (8000, "Quick", dec 150 100) [(500, "Hit", 1%Q); (600, "Auto", 1%Q); (4040, "Auto", dec 150 100); (7480, "Auto", 1%Q); (8000, "Quick", 1%Q)]).
  { apply (Permutation_in _ (Permutation_sym P)), in_or_app. right. right. left. reflexivity. }
  apply (in_map (fun x => (snd (fst x), Qeq_bool (snd x) 1))) in I. vm_compute in I. intuition discriminate.
Qed.

(** *** Shipped skills: a Warrior's autos among party buffs. *)
Definition sp_check : res (bool * bool * bool * list (Z * string * Q * Q) * list (Z * string * Q * Q)) :=
  let* st := stats_of (case_gear "WAR") in
  let* b0 := rb_init st case_lib None false true None (RWTuple []) "Boss" in
  let* b := follow b0 bs_l in
  let* r := get_skill_timing b in
  let* h := hits_with st case_lib None false true None (RWTuple []) "Boss" bs_l in
  let* h' := hits_with st case_lib None true true None (RWTuple []) "Boss" bs_l in
  Ok (Qle_bool 1 (st_weapon_delay st), forallb orderlyb (timeline r), apart (flat_map places (timeline r)), map shown h, map shown h').
Definition sp_plain : list (Z * string * Q * Q) := [(0, "Heavy Swing", 1%Q, 0%Q); (2591, "Maim", 1%Q, dec 1 10); (6091, "Fell Cleave", dec 106 100, Qred (dec 1 10 + dec 1 10))].
Definition sp_more : list (Z * string * Q * Q) :=
  [(0, "Heavy Swing", 1%Q, 0%Q); (532, "Auto", 1%Q, 0%Q); (2591, "Maim", 1%Q, dec 1 10); (3892, "Auto", 1%Q, Qred (dec 1 10 + dec 1 10));
   (6091, "Fell Cleave", dec 106 100, Qred (dec 1 10 + dec 1 10))].
Lemma sp_checked : sp_check = Ok (true, true, true, sp_plain, sp_more).
Proof. vm_compute. reflexivity. Qed.
Lemma sp_case : exists st b0 b r hits hits',
  create_skill_library "7.05" 100 = Ok case_lib /\ stats_of (case_gear "WAR") = Ok st /\ (1 <= st_weapon_delay st)%Q
  /\ rb_init st case_lib None false true None (RWTuple []) "Boss" = Ok b0 /\ follow b0 bs_l = Ok b
  /\ get_skill_timing b = Ok r /\ Forall orderly (timeline r) /\ distinct_places (timeline r)
  /\ hits_with st case_lib None false true None (RWTuple []) "Boss" bs_l = Ok hits
  /\ hits_with st case_lib None true true None (RWTuple []) "Boss" bs_l = Ok hits'
  /\ map shown hits = sp_plain /\ map shown hits' = sp_more.
Proof.
  pose proof sp_checked as K. unfold sp_check in K. apply bind_ok in K as (st & S & K). apply bind_ok in K as (b0 & I & K).
  apply bind_ok in K as (b & F & K). apply bind_ok in K as (r & R & K). apply bind_ok in K as (h & H & K). apply bind_ok in K as (h' & H' & K).
  apply (f_equal (fun x => match x with Ok y => y | Err _ => (false, false, false, [], []) end)) in K. cbn beta iota in K.
  pose proof (f_equal (fun x => fst (fst (fst (fst x)))) K) as K1. pose proof (f_equal (fun x => snd (fst (fst (fst x)))) K) as K2.
  pose proof (f_equal (fun x => snd (fst (fst x))) K) as K3. pose proof (f_equal (fun x => snd (fst x)) K) as K4. pose proof (f_equal snd K) as K5.
  cbn [fst snd] in K1, K2, K3, K4, K5. clear K.
  exists st, b0, b, r, h, h'. split; [exact case_created|]. split; [exact S|]. split; [apply Qle_bool_iff, K1|]. split; [exact I|]. split; [exact F|]. split; [exact R|].
  split; [apply orderlyb_sound, K2|]. split; [apply apart_sound, K3|]. split; [exact H|]. split; [exact H'|]. split; [exact K4|exact K5].
Qed.
