(** * Damage over time in a rotation of shipped skills (C92) *)

From Coq Require Import ZArith QArith List String Bool Lia.
From Verif Require Import Base BaseFacts Float Types Lookup Stats Library Events Rotation DamageBuild GameLib SpecTimeline SpecHit SpecRun SpecLater SpecReplay SpecShuffle SpecIdle SpecCause SpecGear SettingsFacts SafeCase ShuffleCase CauseCase SpecBuff BuffCase BuffShip TrailCase.
Import ListNotations.
Open Scope string_scope.
Open Scope Z_scope.

Definition ts_l : list instr :=
  [PressAt 0 (tap "Heavy Swing" None); PressAt 1 (by_job "SCH" "Chain Stratagem"); PressAt 3 (by_job "SCH" "Biolysis"); PressAt 25 (tap "Maim" None)].
Definition bare (b : builder) : bool := match b_windows b, b_snap_dots b with WTuple [], None => true | _, _ => false end.
Lemma bare_sound b : bare b = true -> no_windows b /\ exact_ticks b.
Proof.
  unfold bare. destruct (b_windows b) as [[|]|] eqn:W; try discriminate. destruct (b_snap_dots b) eqn:S; try discriminate. intros _. split; [exact (no_tuple_windows b W)|left; exact S].
Qed.
Definition ts_check : res (bool * bool * bool * list (Z * string * Q * Q) * list (Z * string * Q * Q)) :=
  let* st := stats_of (case_gear "WAR") in
  let* b0 := rb_init st case_lib None false false (Some 0) (RWTuple []) "Boss" in
  let* b := follow b0 ts_l in
  let* r := get_skill_timing b in
  let* h := hits_with st case_lib None false true (Some 0) (RWTuple []) "Boss" ts_l in
  let* h' := hits_with st case_lib None false false (Some 0) (RWTuple []) "Boss" ts_l in
  Ok (bare b, forallb orderlyb (timeline r), apart (flat_map places (timeline r)), map shown h, map shown h').
Definition ts_fewer : list (Z * string * Q * Q) :=
  [(532, "Heavy Swing", 1%Q, 0%Q); (3670, "Biolysis (dot)", 1%Q, dec 1 10); (6670, "Biolysis (dot)", 1%Q, dec 1 10); (9670, "Biolysis (dot)", 1%Q, dec 1 10);
   (12670, "Biolysis (dot)", 1%Q, dec 1 10); (15670, "Biolysis (dot)", 1%Q, dec 1 10); (18670, "Biolysis (dot)", 1%Q, dec 1 10); (21670, "Biolysis (dot)", 1%Q, dec 1 10);
   (24670, "Biolysis (dot)", 1%Q, dec 1 10); (25623, "Maim", 1%Q, 0%Q)].
Definition ts_late : list (Z * string * Q * Q) := [(27670, "Biolysis (dot)", 1%Q, dec 1 10); (30670, "Biolysis (dot)", 1%Q, dec 1 10)].
Lemma ts_checked : ts_check = Ok (true, true, true, ts_fewer, (ts_fewer ++ ts_late)%list).
Proof. vm_compute. reflexivity. Qed.
Lemma ts_full : exists st b0 b r hits hits',
  create_skill_library "7.05" 100 = Ok case_lib /\ gear_nonneg (case_gear "WAR") /\ stats_of (case_gear "WAR") = Ok st
  /\ rb_init st case_lib None false false (Some 0) (RWTuple []) "Boss" = Ok b0 /\ follow b0 ts_l = Ok b /\ no_windows b /\ exact_ticks b
  /\ get_skill_timing b = Ok r /\ Forall orderly (timeline r) /\ distinct_places (timeline r)
  /\ hits_with st case_lib None false true (Some 0) (RWTuple []) "Boss" ts_l = Ok hits
  /\ hits_with st case_lib None false false (Some 0) (RWTuple []) "Boss" ts_l = Ok hits'
  /\ map shown hits = ts_fewer /\ map shown hits' = (ts_fewer ++ ts_late)%list.
Proof.
  pose proof ts_checked as K. unfold ts_check in K. apply bind_ok in K as (st & S & K). apply bind_ok in K as (b0 & I & K).
  apply bind_ok in K as (b & F & K). apply bind_ok in K as (r & R & K). apply bind_ok in K as (h & H & K). apply bind_ok in K as (h' & H' & K).
  apply (f_equal (fun x => match x with Ok y => y | Err _ => (false, false, false, [], []) end)) in K. cbn beta iota in K.
  pose proof (f_equal (fun x => fst (fst (fst (fst x)))) K) as K1. pose proof (f_equal (fun x => snd (fst (fst (fst x)))) K) as K2.
  pose proof (f_equal (fun x => snd (fst (fst x))) K) as K3. pose proof (f_equal (fun x => snd (fst x)) K) as K4. pose proof (f_equal snd K) as K5. cbn [fst snd] in K1, K2, K3, K4, K5. clear K.
  exists st, b0, b, r, h, h'. split; [exact case_created|]. split; [vm_compute; repeat split; discriminate|]. split; [exact S|]. split; [exact I|]. split; [exact F|].
  destruct (bare_sound b K1) as (W & E). split; [exact W|]. split; [exact E|]. split; [exact R|].
  split; [apply orderlyb_sound, K2|]. split; [apply apart_sound, K3|]. split; [exact H|]. split; [exact H'|]. split; [exact K4|exact K5].
Qed.
Lemma ts_case : exists st b0 b r hits hits',
  create_skill_library "7.05" 100 = Ok case_lib
  /\ rb_init st case_lib None false false (Some 0) (RWTuple []) "Boss" = Ok b0 /\ follow b0 ts_l = Ok b /\ no_windows b /\ exact_ticks b
  /\ get_skill_timing b = Ok r /\ Forall orderly (timeline r) /\ distinct_places (timeline r)
  /\ hits_with st case_lib None false true (Some 0) (RWTuple []) "Boss" ts_l = Ok hits
  /\ hits_with st case_lib None false false (Some 0) (RWTuple []) "Boss" ts_l = Ok hits'
  /\ map shown hits = ts_fewer /\ map shown hits' = (ts_fewer ++ ts_late)%list.
Proof. destruct ts_full as (st & b0 & b & r & h & h' & C & _ & _ & K). exists st, b0, b, r, h, h'. split; [exact C|exact K]. Qed.
