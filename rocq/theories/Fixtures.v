(** * Concrete skills, a library and stats used by the [Example]s.

    Modelled on tests/create_test_skill_library.py style definitions; nothing in
    the theorems depends on this file. *)

From Coq Require Import ZArith QArith List String Bool.
From Verif Require Import Base Float Strings Types Lookup StatusEffect JobResource Combo Channeling
  Stats Library Events Rotation DamageBuild Damage.
Import ListNotations.
Open Scope string_scope.
Open Scope Z_scope.

Definition fx_damage (p : Z) : damage_spec :=
  mkDamage (q p) DC_DIRECT F_DEFAULT F_DEFAULT None None 1 None 1.
Definition fx_damage_class (p : Z) (c : dclass) : damage_spec :=
  mkDamage (q p) c F_DEFAULT F_DEFAULT None None 1 None 1.
Definition fx_timing (cast lock delay : Z) : timing_spec := mkTiming cast 2500 lock delay true true.

Definition fx_skill (name : string) (d : cspec damage_spec) (t : timing_spec) (gcd : bool)
    (fus : list follow_up) : skill :=
  mkSkill name d (COne t) CNone CNone CNone (TTuple []) (TTuple []) [] gcd [] true (TTuple fus) "".

Definition fx_status (dur : Z) (mult : Q) : status_spec :=
  mkStatus (Fin dur) (Fin dur) Inf Inf 0 0 mult 0 1 0 0 (Fin 0) 0 true [] None
    F_DEFAULT F_DEFAULT false false false false.

Definition fx_buff_skill (name : string) (b d : cspec status_spec) : skill :=
  mkSkill name CNone (COne (fx_timing 0 650 100)) b d CNone (TTuple []) (TTuple []) [] false [] true
    (TTuple []) "".

Definition fx_hit : skill := fx_skill "Hit" (COne (fx_damage 500)) (fx_timing 0 650 500) true [].
Definition fx_ogcd : skill := fx_skill "Quick" (COne (fx_damage 100)) (fx_timing 0 650 0) false [].
Definition fx_cast : skill := fx_skill "Cast" (COne (fx_damage 300)) (fx_timing 1500 100 600) true [].
Definition fx_tick : skill :=
  fx_skill "Burn (tick)" (COne (fx_damage_class 50 DC_MAGICAL_DOT)) (fx_timing 0 0 0) false [].
Definition fx_burn_fu : follow_up := mkFollowUp fx_tick 0 true true (Some 15000) false.
Definition fx_burn : skill := fx_skill "Burn" (COne (fx_damage 200)) (fx_timing 0 650 400) true [fx_burn_fu].
Definition fx_auto : skill :=
  fx_skill "Auto" (COne (fx_damage_class 90 DC_AUTO)) (fx_timing 0 0 100) false [].
Definition fx_buff : skill := fx_buff_skill "Boost" (COne (fx_status 20000 (dec 110 100))) CNone.
Definition fx_debuff : skill := fx_buff_skill "Weaken" CNone (COne (fx_status 15000 (dec 105 100))).

Definition fx_library_res : res library :=
  foldM add_skill [fx_hit; fx_ogcd; fx_cast; fx_burn; fx_auto; fx_buff; fx_debuff]
    (set_current_job_class (lib_init "test" 100) "test_job").
Definition fx_library : library :=
  Eval vm_compute in match fx_library_res with Ok l => l | Err _ => lib_init "test" 100 end.

Definition fx_stats_res : res stats :=
  make_stats (q 126) (Some (dec 344 100)) (q 2945) (q 1620) (q 1620) (q 2377) (q 708) "test_job" "test"
    None (q 5) None 90.
Definition fx_stats : stats :=
  Eval vm_compute in match fx_stats_res with
                     | Ok s => s
                     | Err _ => mkStats 0 0 0 0 0 0 0 "" "" None 0 None 0 0 0 0 0 0 0 0 0
                     end.

Definition fx_builder (autos ignore_trailing : bool) (start : option Z) (w : raw_windows) : res builder :=
  rb_init fx_stats fx_library None autos ignore_trailing start w DEFAULT_TARGET.

Example fx_library_ok : fx_library_res = Ok fx_library.
Proof. vm_compute. reflexivity. Qed.
Example fx_stats_ok : fx_stats_res = Ok fx_stats.
Proof. vm_compute. reflexivity. Qed.
