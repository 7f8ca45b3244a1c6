(** * Concrete cases for C78 *)

From Coq Require Import ZArith QArith Qround List String Bool Lqa.
From Verif Require Import Base BaseFacts Float Strings Types Lookup StatusEffect Stats Library Events Rotation DamageBuild Damage KillTime Fixtures Relabel
  SpecReplay SpecHit SpecKill SpecGame GameCheck SpecShuffle ShuffleCase SpecMove SpecNeed SpecGear HitProps KillFacts.
Import ListNotations.
Open Scope string_scope.
Open Scope Z_scope.

(** A better weapon and more of every substat but speed. *)
Definition better_gear : gear :=
  mkGear (q 130) (Some (dec 344 100)) (q 3000) (q 1700) (q 1640) (q 2500) (q 708) "test_job" "test" None (q 5) None 90.
Definition gr_calls : list instr := [NextPress (tap "Boost" None) 1; NextPress (tap "Hit" None) 1; PressAt (dec 444 100) (tap "Quick" None)].
Definition gr_stats (g : gear) : stats := match stats_of g with Ok st => st | Err _ => fx_stats end.
Definition gr_report (g : gear) : res report :=
  report_with (gr_stats g) fx_library None true false None (RWTuple []) DEFAULT_TARGET gr_calls 2 half_draws half_draws.

Definition library_okb (lib : library) : bool :=
  forallb (fun jd => forallb (fun ns => all_parts 6 (fun p => forallb damage_okb (damages_of p) && forallb effect_okb (effects_of p)) (snd ns)) (snd jd)) (lib_skills lib).
Lemma library_okb_sound lib : library_okb lib = true -> sane_library lib.
Proof.
  intros H n j s G p P. unfold get_skill in G. inv_bind G. unfold of_option in *. destruct (dget j (lib_skills lib)) as [d|] eqn:Ej; [|discriminate]. injection E as ->.
  destruct (dget n a) as [s'|] eqn:En; [|discriminate]. injection G as ->. apply dget_in in Ej. apply dget_in in En. unfold library_okb in H.
  rewrite forallb_forall in H. specialize (H _ Ej). rewrite forallb_forall in H. specialize (H _ En). cbn [snd] in H. pose proof (all_parts_sound _ _ _ P _ H) as X.
  cbv beta in X. apply andb_true_iff in X as [A B]. rewrite forallb_forall in A, B. split; intros x I; [apply damage_okb_sound, A, I|apply effect_okb_sound, B, I].
Qed.

(** The same without the crit and direct hit. *)
Definition steady_gear : gear :=
  mkGear (q 130) (Some (dec 344 100)) (q 3000) (q 1700) (q 1620) (q 2377) (q 708) "test_job" "test" None (q 5) None 90.
Definition unitb (x : Q) : bool := Qle_bool 0 x && Qle_bool x 1.
Definition rates_okb (st : stats) (x : instance) : bool :=
  match get_damage_spec (di_skill x) (di_modifier x) with
  | Ok (Some d) => match crit_rates_and_bonuses st d (di_modifier x) (di_effects x) with Ok (dh, crit, _) => unitb crit && unitb dh | Err _ => true end
  | _ => true
  end.
Lemma rates_okb_sound st x : rates_okb st x = true -> unit_rates st x.
Proof.
  unfold rates_okb, unit_rates. intros H d dh crit bonus E R. rewrite E, R in H. unfold unitb in H. rewrite !andb_true_iff, !Qle_bool_iff in H.
  unfold in_unit. tauto.
Qed.
Definition gr_hits : list instance :=
  match hits_with fx_stats fx_library None true false None (RWTuple []) DEFAULT_TARGET gr_calls with Ok l => l | Err _ => [] end.
Definition gr_rotation (g : gear) : res builder :=
  rotation_with (gr_stats g) fx_library None false false None (RWTuple []) DEFAULT_TARGET [NextPress (tap "Hit" None) 3].
Definition gr_kills (hp : Z) (g : gear) : res (list (option Q)) :=
  let* b := gr_rotation g in estimate_kill_time (inject_Z hp) [(b, kx_draws); (b, kx_draws)] 2 stable_argsort.

Lemma gr_gear : sane_library fx_library /\ gear_nonneg fx_gear /\ better fx_gear better_gear /\ same_pace fx_gear better_gear
  /\ stats_of fx_gear = Ok fx_stats /\ stats_of better_gear = Ok (gr_stats better_gear).
Proof.
  split; [apply library_okb_sound; vm_compute; reflexivity|]. split; [vm_compute; repeat split; discriminate|]. split; [vm_compute; repeat split; discriminate|].
  split; [repeat split|]. split; vm_compute; reflexivity.
Qed.
Lemma gr_damage : rmap (fun r => map Qfloor (rp_damage r)) (gr_report fx_gear) = Ok [20837; 20837]
  /\ rmap (fun r => map Qfloor (rp_damage r)) (gr_report better_gear) = Ok [21886; 21886].
Proof. split; vm_compute; reflexivity. Qed.
Lemma gr_expected : better fx_gear steady_gear /\ same_pace fx_gear steady_gear
  /\ hits_with fx_stats fx_library None true false None (RWTuple []) DEFAULT_TARGET gr_calls = Ok gr_hits /\ Forall (unit_rates fx_stats) gr_hits
  /\ rmap (fun r => map Qfloor (rp_expected r)) (gr_report fx_gear) = Ok [18612; 3898; 3719]
  /\ rmap (fun r => map Qfloor (rp_expected r)) (gr_report steady_gear) = Ok [19540; 4103; 3906].
Proof.
  split; [vm_compute; repeat split; discriminate|]. split; [repeat split|]. split; [vm_compute; reflexivity|].
  split; [|split; vm_compute; reflexivity]. assert (F : forallb (rates_okb fx_stats) gr_hits = true) by (vm_compute; reflexivity).
  apply Forall_forall. intros x I. rewrite forallb_forall in F. apply rates_okb_sound, F, I.
Qed.
Lemma gr_made : exists b b', gr_rotation fx_gear = Ok b /\ gr_rotation better_gear = Ok b'.
Proof. vm_compute. do 2 eexists. split; reflexivity. Qed.
Lemma gr_pair b b' : gr_rotation fx_gear = Ok b -> gr_rotation better_gear = Ok b' -> regeared (b, kx_draws) (b', kx_draws).
Proof.
  intros R R'. destruct gr_gear as (L & N & B & P & S & S'). assert (S0 : stats_of fx_gear = Ok (gr_stats fx_gear)) by (unfold gr_stats; rewrite S; reflexivity).
  exact (conj eq_refl (ex_intro _ fx_gear (ex_intro _ better_gear (ex_intro _ (gr_stats fx_gear) (ex_intro _ (gr_stats better_gear) (ex_intro _ fx_library
    (ex_intro _ None (ex_intro _ false (ex_intro _ false (ex_intro _ None (ex_intro _ (RWTuple []) (ex_intro _ DEFAULT_TARGET (ex_intro _ _
    (conj N (conj B (conj P (conj L (conj S0 (conj S' (conj R R')))))))))))))))))))).
Qed.
Lemma gr_regeared : exists b b', gr_rotation fx_gear = Ok b /\ gr_rotation better_gear = Ok b'
  /\ Forall2 regeared [(b, kx_draws); (b, kx_draws)] [(b', kx_draws); (b', kx_draws)].
Proof.
  destruct gr_made as (b & b' & R & R'). exists b, b'. split; [exact R|]. split; [exact R'|]. pose proof (gr_pair b b' R R') as X.
  constructor; [exact X|]. constructor; [exact X|constructor].
Qed.
Lemma gr_kill_case : rmap (map (option_map (fun x => Qfloor (Qmult x 1000)))) (gr_kills 80000 fx_gear) = Ok [Some 4879; None]
  /\ rmap (map (option_map (fun x => Qfloor (Qmult x 1000)))) (gr_kills 80000 better_gear) = Ok [Some 4879; Some 4879].
Proof. split; vm_compute; reflexivity. Qed.
