(** * C90: who is in a kill time estimate *)

From Coq Require Import ZArith QArith List String Bool Permutation Lqa.
From Verif Require Import Base Float Types Lookup Stats Library Events Rotation DamageBuild Damage KillTime SpecHit SpecKill SpecShuffle SpecGear SpecParty KillFacts HitProps PartyFacts Fixtures.
Import ListNotations.
Open Scope string_scope.
Open Scope Z_scope.

(** The order of the rotations, and the order in which np.argsort leaves hits at the same time, do not matter. *)
Theorem C90_order hp rots rots' n argsort argsort' ks ks' : sorts argsort -> sorts argsort' -> Permutation rots rots' -> Forall sound_play rots ->
  estimate_kill_time hp rots n argsort = Ok ks -> estimate_kill_time hp rots' n argsort' = Ok ks' -> ks' = ks.
Proof. exact (order_free hp rots rots' n argsort argsort' ks ks'). Qed.
Print Assumptions C90_order.

(** With further rotations no sample is killed later. *)
Theorem C90_players hp rots more n argsort ks ks' : sorts argsort -> Forall sound_play rots -> Forall sound_play more ->
  estimate_kill_time hp rots n argsort = Ok ks -> estimate_kill_time hp (rots ++ more) n argsort = Ok ks' ->
  exists deaths deaths', ks = reported deaths /\ ks' = reported deaths' /\ Forall2 not_earlier deaths' deaths.
Proof. exact (more_players hp rots more n argsort ks ks'). Qed.
Print Assumptions C90_players.

(** Samples do not influence each other: the first ones are killed as they are in a larger estimate. *)
Theorem C90_samples hp rots n n' argsort ks ks' : sorts argsort -> Forall sound_play rots -> (n <= n')%nat ->
  estimate_kill_time hp rots n argsort = Ok ks -> estimate_kill_time hp rots n' argsort = Ok ks' ->
  exists deaths', ks' = reported deaths' /\ List.length deaths' = n' /\ ks = reported (firstn n deaths').
Proof. exact (fewer_samples hp rots n n' argsort ks ks'). Qed.
Print Assumptions C90_samples.

(** Any rotation built from a library without negative numbers, as the shipped ones (C78), is sound. *)
Theorem C90_sound lib g st snap autos trailing start w target l b u : sane_library lib -> gear_nonneg g -> stats_of g = Ok st ->
  rotation_with st lib snap autos trailing start w target l = Ok b -> draws_ok u -> sound_play (b, u).
Proof. exact (made_sound lib g st snap autos trailing start w target l b u). Qed.
Print Assumptions C90_sound.

(** Two players with a draw that depends on the sample. *)
Definition pa_draws : rotation_draws := mkDraws half_draws (fun i j => (if Nat.eqb j 0 then (0, (1 # 2), (1 # 2)) else ((1 # 2), (1 # 2), (1 # 2)))%Q) (fun _ _ => (1 # 2)%Q).
Notation pa_kill hp names n := (estimate_kill_time (inject_Z hp) (map (fun s => (kx_rotation s, pa_draws)) names) n stable_argsort).
Example C90_case : sorts stable_argsort /\ Forall sound_play (map (fun s => (kx_rotation s, pa_draws)) ["Hit"; "Quick"])
  /\ pa_kill 42500 ["Hit"] 2 = Ok [None; None] /\ pa_kill 42500 ["Hit"; "Quick"] 2 = Ok [Some (dec 359 100); Some (dec 294 100)]
  /\ pa_kill 42500 ["Quick"; "Hit"] 2 = Ok [Some (dec 359 100); Some (dec 294 100)] /\ pa_kill 42500 ["Hit"; "Quick"] 1 = Ok [Some (dec 359 100)].
Proof.
  split; [exact stable_argsort_sorts|]. split.
  { assert (D : draws_ok pa_draws) by (split; intros i j; cbn; [destruct (Nat.eqb j 0); cbn; lra|lra]).
    repeat constructor; try (exists fx_gear; split; [vm_compute; reflexivity|vm_compute; discriminate]); try exact D; try (apply hits_checked; vm_compute; reflexivity); apply D. }
  split; [vm_compute; reflexivity|]. split; [vm_compute; reflexivity|]. split; vm_compute; reflexivity.
Qed.
