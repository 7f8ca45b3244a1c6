(** * Kills of shipped rotations (C89) *)

From Coq Require Import ZArith QArith List String Bool Lia Lqa Permutation.
From Verif Require Import Base BaseFacts Float Types Lookup Stats Library Events Rotation DamageBuild Damage GameLib KillTime SpecTimeline SpecHit SpecKill SpecRun SpecLater SpecReplay SpecShuffle SpecIdle SpecCause SpecGear SettingsFacts SafeCase ShuffleCase CauseCase SpecBuff BuffCase BuffShip
  SpecStrike StrikeCase HitProps KillFacts SpecReport SpecAid AidFacts.
Import ListNotations.
Open Scope string_scope.
Open Scope Z_scope.

Definition ad_draws : rotation_draws := mkDraws half_draws half_draws (fun _ _ => (1 # 2)%Q).
Lemma ad_drawn : draws_ok ad_draws.
Proof. split; intros i j; cbn; lra. Qed.
Lemma ad_luck f : same_luck f ad_draws ad_draws.
Proof. intros i j. split; reflexivity. Qed.
Notation ad_kill hp b := (estimate_kill_time (inject_Z hp) [(b, ad_draws)] 1 stable_argsort).

(** A Warrior with party buffs and without. *)
Definition ad_buffs : res (bool * list (option Q) * list (option Q)) :=
  let* st := stats_of (case_gear "WAR") in
  let* b0 := rb_init st case_lib None false false (Some 0) (RWTuple []) "Boss" in
  let* b := follow b0 (unsupported bs_extra b0 bs_l) in
  let* b' := follow b0 bs_l in
  let* k := ad_kill 50000 b in
  let* k' := ad_kill 50000 b' in
  Ok (true, k, k').
Lemma ad_buffs_ok : ad_buffs = Ok (true, [None], [Some (dec 6623 1000)]).
Proof. vm_compute. reflexivity. Qed.
(** With autos and without. *)
Definition ad_autos : res (bool * list (option Q) * list (option Q)) :=
  let* st := stats_of (case_gear "WAR") in
  let* b := rotation_with st case_lib None false true None (RWTuple []) "Boss" bs_l in
  let* b' := rotation_with st case_lib None true true None (RWTuple []) "Boss" bs_l in
  let* k := ad_kill 8000 b in
  let* k' := ad_kill 8000 b' in
  Ok (true, k, k').
Lemma ad_autos_ok : ad_autos = Ok (true, [Some (dec 2591 1000)], [Some (dec 532 1000)]).
Proof. vm_compute. reflexivity. Qed.

Lemma ad_buffs_case : exists b b', Forall2 aided [(b, ad_draws)] [(b', ad_draws)]
  /\ ad_kill 50000 b = Ok [None] /\ ad_kill 50000 b' = Ok [Some (dec 6623 1000)].
Proof.
  destruct bs_case as (st & b0 & b & r & h & h' & C & N & S & X & B0 & F & Q & D & R & O & P & H & H' & _).
  pose proof ad_buffs_ok as K. unfold ad_buffs in K. rewrite S in K. cbn [bind] in K. rewrite B0 in K. cbn [bind] in K. rewrite F in K.
  apply bind_ok in K as (b1 & F1 & K). cbn [bind] in K. apply bind_ok in K as (k & K1 & K). apply bind_ok in K as (k' & K2 & K).
  exists b1, b. split.
  - constructor; [|constructor]. destruct (shipped_buffs_aid _ _ _ _ _ _ _ _ _ _ _ _ _ _ _ _ _ C N S X B0 F Q D R O P H H' F1) as (f & A). exists f. split; [exact A|apply ad_luck].
  - rewrite K1, K2. injection K as -> ->. split; reflexivity.
Qed.
Lemma ad_autos_case : exists b b', Forall2 aided [(b, ad_draws)] [(b', ad_draws)]
  /\ ad_kill 8000 b = Ok [Some (dec 2591 1000)] /\ ad_kill 8000 b' = Ok [Some (dec 532 1000)].
Proof.
  destruct sp_case as (st & b0 & b & r & h & h' & C & S & W & B0 & F & R & O & P & H & H' & _).
  pose proof ad_autos_ok as K. unfold ad_autos in K. rewrite S in K. cbn [bind] in K. apply bind_ok in K as (b1 & F1 & K).
  assert (b1 = b) as -> by (unfold rotation_with in F1; rewrite B0 in F1; cbn [bind] in F1; rewrite F in F1; injection F1 as <-; reflexivity).
  apply bind_ok in K as (b' & F' & K). apply bind_ok in K as (k & K1 & K). apply bind_ok in K as (k' & K2 & K).
  exists b, b'. split.
  - constructor; [|constructor]. assert (N : gear_nonneg (case_gear "WAR")) by (vm_compute; repeat split; discriminate).
    destruct (shipped_autos_aid _ _ _ _ _ _ _ _ _ _ _ _ _ _ _ _ _ C N S W B0 F R O P H H' F') as (f & A). exists f. split; [exact A|apply ad_luck].
  - rewrite K1, K2. injection K as -> ->. split; reflexivity.
Qed.
