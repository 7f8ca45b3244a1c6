(** * Party buffs in a rotation of shipped skills (C86) *)

From Coq Require Import ZArith QArith List String Bool Lia.
From Verif Require Import Base BaseFacts Float Types Lookup Stats Library Events Rotation DamageBuild GameLib SpecTimeline SpecHit SpecRun SpecLater SpecReplay SpecShuffle SpecIdle SpecCause SpecGear SettingsFacts SafeCase ShuffleCase CauseCase SpecBuff BuffCase.
Import ListNotations.
Open Scope string_scope.
Open Scope Z_scope.

Definition by_job (j n : string) : call := mkCall n None (Some j) None.
Definition bs_extra (n : string) : bool := String.eqb n "Battle Litany" || String.eqb n "Chain Stratagem" || String.eqb n "Divination".
Definition bs_l : list instr :=
  [NextPress (tap "Heavy Swing" None) 1; PressAt 1 (by_job "DRG" "Battle Litany"); PressAt 2 (tap "Inner Release" None); NextPress (tap "Maim" None) 1;
   PressAt (27 # 10) (by_job "SCH" "Chain Stratagem"); PressAt 4 (by_job "AST" "Divination"); PressAt 6 (tap "Fell Cleave" None)].
(** Time, skill, damage bonus and bonus crit rate of a hit. *)
Definition shown (i : instance) : Z * string * Q * Q :=
  (di_time i, sk_name (di_skill i), Qred (ef_damage_mult (fst (di_effects i)) * ef_damage_mult (snd (di_effects i))), Qred (ef_crit_rate_add (fst (di_effects i)) + ef_crit_rate_add (snd (di_effects i)))).
Definition bs_check : res (list Z * list string * bool * bool * list (Z * string * Q * Q) * list (Z * string * Q * Q)) :=
  let* st := stats_of (case_gear "WAR") in
  let* b0 := rb_init st case_lib None false false (Some 0) (RWTuple []) "Boss" in
  let* b := follow b0 bs_l in
  let* r := get_skill_timing b in
  let* h := hits_with st case_lib None false false (Some 0) (RWTuple []) "Boss" (unsupported bs_extra b0 bs_l) in
  let* h' := hits_with st case_lib None false false (Some 0) (RWTuple []) "Boss" bs_l in
  Ok (map tm_time (b_timed b), map (fun x => sk_name (sq_skill x)) (b_sequence b), forallb orderlyb (timeline r), apart (flat_map places (timeline r)), map shown h, map shown h').
Definition bs_plain : list (Z * string * Q * Q) := [(532, "Heavy Swing", 1%Q, 0%Q); (3123, "Maim", 1%Q, 0%Q); (6623, "Fell Cleave", 1%Q, 0%Q)].
Definition bs_better : list (Z * string * Q * Q) :=
  [(532, "Heavy Swing", 1%Q, 0%Q); (3123, "Maim", 1%Q, dec 1 10); (6623, "Fell Cleave", dec 106 100, Qred (dec 1 10 + dec 1 10))].
Lemma bs_checked : bs_check = Ok ([1000; 2000; 2700; 4000; 6000], ["Heavy Swing"; "Maim"], true, true, bs_plain, bs_better).
Proof. vm_compute. reflexivity. Qed.
Lemma bs_case : exists st b0 b r hits hits',
  create_skill_library "7.05" 100 = Ok case_lib /\ gear_nonneg (case_gear "WAR") /\ stats_of (case_gear "WAR") = Ok st
  /\ (forall n, bs_extra n = true -> In n shipped_buffs)
  /\ rb_init st case_lib None false false (Some 0) (RWTuple []) "Boss" = Ok b0 /\ follow b0 bs_l = Ok b
  /\ (forall x, In x (b_sequence b) -> bs_extra (sk_name (sq_skill x)) = false) /\ distinct_times b
  /\ get_skill_timing b = Ok r /\ Forall orderly (timeline r) /\ distinct_places (timeline r)
  /\ hits_with st case_lib None false false (Some 0) (RWTuple []) "Boss" (unsupported bs_extra b0 bs_l) = Ok hits
  /\ hits_with st case_lib None false false (Some 0) (RWTuple []) "Boss" bs_l = Ok hits'
  /\ map shown hits = bs_plain /\ map shown hits' = bs_better.
Proof.
  pose proof bs_checked as K. unfold bs_check in K. apply bind_ok in K as (st & S & K). apply bind_ok in K as (b0 & I & K).
  apply bind_ok in K as (b & F & K). apply bind_ok in K as (r & R & K). apply bind_ok in K as (h & H & K). apply bind_ok in K as (h' & H' & K).
  apply (f_equal (fun x => match x with Ok y => y | Err _ => ([], [], false, false, [], []) end)) in K. cbn beta iota in K.
  pose proof (f_equal (fun x => fst (fst (fst (fst (fst x))))) K) as K1. pose proof (f_equal (fun x => snd (fst (fst (fst (fst x))))) K) as K2.
  pose proof (f_equal (fun x => snd (fst (fst (fst x)))) K) as K3. pose proof (f_equal (fun x => snd (fst (fst x))) K) as K4.
  pose proof (f_equal (fun x => snd (fst x)) K) as K5. pose proof (f_equal snd K) as K6. cbn [fst snd] in K1, K2, K3, K4, K5, K6. clear K.
  exists st, b0, b, r, h, h'. split; [exact case_created|]. split; [vm_compute; repeat split; discriminate|]. split; [exact S|].
  split. { intros n. unfold bs_extra. rewrite !orb_true_iff, !String.eqb_eq. intros [[->| ->]| ->]; cbn; tauto. }
  split; [exact I|]. split; [exact F|].
  split. { intros x Ix. apply (in_map (fun x => sk_name (sq_skill x))) in Ix. rewrite K2 in Ix. destruct Ix as [<-|[<-|[]]]; reflexivity. }
  split; [unfold distinct_times; rewrite K1; repeat constructor; simpl; intuition discriminate|]. split; [exact R|].
  split; [apply orderlyb_sound, K3|]. split; [apply apart_sound, K4|]. split; [exact H|]. split; [exact H'|]. split; [exact K5|exact K6].
Qed.
