(** * A wait in a rotation of shipped skills (C75) *)

From Coq Require Import ZArith QArith List String Bool Lia.
From Verif Require Import Base BaseFacts Float Types Lookup Stats Library Events Rotation GameLib SpecTimeline SpecHit SpecRun SpecLater SpecReplay SpecShuffle SpecIdle SettingsFacts SafeCase ShuffleCase.
Import ListNotations.
Open Scope string_scope.
Open Scope Z_scope.

Definition sp_l1 : list instr := [NextPress (tap "Heavy Swing" None) 1; PressAt 2 (tap "Inner Release" None)].
Definition sp_l2 : list instr := [PressAt 3 (tap "Fell Cleave" None); NextPress (tap "Maim" None) 1].
Definition sp_l : list instr := (sp_l1 ++ PressAt (25 # 10) (tap "Wait 0.70s" None) :: sp_l2)%list.
Definition sp_check : res (list Z * list (Z * string)) :=
  let* st := stats_of (case_gear "WAR") in
  let* b0 := rb_init st case_lib None false false (Some 0) (RWTuple []) "Boss" in
  let* b := follow b0 sp_l in
  let* r := get_skill_timing b in
  Ok (map tm_time (b_timed b), map (fun e => (ev_primary e, sk_name (ev_skill e))) (timeline r)).
Lemma sp_checked : sp_check = Ok ([2000; 2500; 3000],
  [(0, "Heavy Swing"); (2000, "Inner Release"); (2000, "Surging Tempest"); (2500, "Maim"); (2500, "Wait 0.70s"); (3000, "Fell Cleave")]).
Proof. vm_compute. reflexivity. Qed.
Lemma sp_case : exists b0 b r,
  create_skill_library "7.05" 100 = Ok (b_library b0) /\ built b0 /\ b_autos b0 = false /\ b_ignore_trailing b0 = false
  /\ follow b0 (sp_l1 ++ PressAt (25 # 10) (tap "Wait 0.70s" None) :: sp_l2)%list = Ok b /\ distinct_times b /\ get_skill_timing b = Ok r
  /\ map (fun e => (ev_primary e, sk_name (ev_skill e))) (timeline r)
     = [(0, "Heavy Swing"); (2000, "Inner Release"); (2000, "Surging Tempest"); (2500, "Maim"); (2500, "Wait 0.70s"); (3000, "Fell Cleave")].
Proof.
  pose proof sp_checked as K. unfold sp_check in K. apply bind_ok in K as (st & S & K). apply bind_ok in K as (b0 & I & K).
  apply bind_ok in K as (b & F & K). apply bind_ok in K as (r & R & K). apply (f_equal (fun x => match x with Ok y => y | Err _ => ([], []) end)) in K. cbn beta iota in K.
  pose proof (f_equal fst K) as T. pose proof (f_equal snd K) as Sh. cbn [fst snd] in T, Sh.
  exists b0, b, r. pose proof I as I'. unfold rb_init in I'. apply bind_ok in I' as (w & _ & I').
  apply (f_equal (fun x => match x with Ok y => y | Err _ => b0 end)) in I'. cbn beta iota in I'.
  split; [rewrite <- I'; exact case_created|]. split; [exact (built_init _ _ _ _ _ _ _ _ _ I)|].
  split; [rewrite <- I'; reflexivity|]. split; [rewrite <- I'; reflexivity|]. split; [exact F|].
  split; [unfold distinct_times; rewrite T; repeat constructor; simpl; intuition discriminate|]. split; [exact R | exact Sh].
Qed.
