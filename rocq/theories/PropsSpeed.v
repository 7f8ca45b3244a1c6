(** * C44: the speed stat *)

From Coq Require Import ZArith QArith List String Bool.
From Verif Require Import Base Float Types Lookup StatusEffect Stats Rotation SpecSpeed SpeedFacts Fixtures.
Import ListNotations.
Open Scope string_scope.
Open Scope Z_scope.

(** More speed never makes a time longer. *)
Theorem C44_faster_not_slower v l t s s' r r' :
  0 <= t -> (s <= s')%Q ->
  get_time_using_speed_stat t s v l = Ok r -> get_time_using_speed_stat t s' v l = Ok r' -> r' <= r.
Proof. exact (faster_not_slower v l t s s' r r'). Qed.
Print Assumptions C44_faster_not_slower.

(** A longer base time never makes a time shorter, for speeds up to 15000. *)
Theorem C44_longer_base v l t t' s r r' :
  t <= t' -> (s <= 15000)%Q ->
  get_time_using_speed_stat t s v l = Ok r -> get_time_using_speed_stat t' s v l = Ok r' -> r <= r'.
Proof. exact (longer_base v l t t' s r r'). Qed.
Print Assumptions C44_longer_base.

(** No negative times, for speeds up to 15000. *)
Theorem C44_never_negative v l t s r :
  0 <= t -> (s <= 15000)%Q -> get_time_using_speed_stat t s v l = Ok r -> 0 <= r.
Proof. exact (never_negative v l t s r). Qed.
Print Assumptions C44_never_negative.

(** Without that bound times can be negative. *)
Theorem C44_negative_refuted :
  exists t s v l r, 0 <= t /\ get_time_using_speed_stat t s v l = Ok r /\ r < 0.
Proof. exact negative_exists. Qed.
Print Assumptions C44_negative_refuted.

(** At the base speed of the level: the base time truncated to 10 ms, or one
    millisecond less. *)
Theorem C44_at_base_speed v l c t r :
  get_consts v l = Ok c -> 0 <= t <= 2 ^ 40 ->
  get_time_using_speed_stat t (inject_Z (c_sub c)) v l = Ok r ->
  10 * (t / 10) - 1 <= r <= 10 * (t / 10).
Proof. exact (at_base_speed v l c t r). Qed.
Print Assumptions C44_at_base_speed.

(** Cast and recast times of a skill, with haste. *)
Theorem C44_cast_not_slower st s s' ts m buffs r r' :
  (forall spec, ts = Some spec -> 0 <= base_cast_time spec) ->
  (s <= s')%Q -> (0 <= ef_haste_mult buffs)%Q -> (ps_trait_haste st <= 1)%Q ->
  get_cast_time (with_speed st s) ts m buffs = Ok r -> get_cast_time (with_speed st s') ts m buffs = Ok r' -> r' <= r.
Proof. exact (cast_not_slower st s s' ts m buffs r r'). Qed.
Print Assumptions C44_cast_not_slower.

Theorem C44_cast_never_negative st ts m buffs r : get_cast_time st ts m buffs = Ok r -> 0 <= r.
Proof. exact (cast_nonneg st ts m buffs r). Qed.
Print Assumptions C44_cast_never_negative.

Theorem C44_recast_not_slower st s s' spec buffs debuffs r r' :
  0 <= gcd_base_recast spec ->
  (s <= s')%Q -> (0 <= ef_haste_mult buffs)%Q -> (0 <= ef_haste_mult debuffs)%Q -> (ps_trait_haste st <= 1)%Q ->
  get_recast_time (with_speed st s) spec buffs debuffs = Ok r ->
  get_recast_time (with_speed st s') spec buffs debuffs = Ok r' -> r' <= r.
Proof. exact (recast_not_slower st s s' spec buffs debuffs r r'). Qed.
Print Assumptions C44_recast_not_slower.

(** Level 90 and 100 at several speeds. *)
Example C44_times :
  map (fun s => get_time_using_speed_stat 2500 (q s) "6.55" 90) [400; 708; 1500; 15000]
    = [Ok 2500; Ok 2440; Ok 2310; Ok 0]
  /\ map (fun s => get_time_using_speed_stat 2500 (q s) "7.0" 100) [420; 708; 1500] = [Ok 2500; Ok 2460; Ok 2370]
  /\ map (fun t => get_time_using_speed_stat t (q 400) "6.55" 90) [2509; 2010; 2030; 0] = [Ok 2500; Ok 2009; Ok 2029; Ok 0]
  /\ get_time_using_speed_stat 2500 (q 400) "6.55" 80 = Err KeyError.
Proof. vm_compute. auto. Qed.
(** A cast and a recast under 15% haste, slow and fast. *)
Definition c44_haste : status_effects := mkEffects 0 0 1 0 1 1 (dec 85 100) (Fin 0) 0 F_DEFAULT F_DEFAULT [].
Definition c44_none : status_effects := mkEffects 0 0 1 0 1 1 1 (Fin 0) 0 F_DEFAULT F_DEFAULT [].
Example C44_skill_times :
  map (fun s => get_cast_time (with_speed fx_stats (q s)) (Some (fx_timing 1500 100 600)) default_modifier c44_haste) [400; 708; 1500]
    = [Ok 1270; Ok 1240; Ok 1170]
  /\ map (fun s => get_recast_time (with_speed fx_stats (q s)) (fx_timing 1500 100 600) c44_haste c44_none) [400; 708; 1500]
    = [Ok 2120; Ok 2070; Ok 1960]
  /\ (ps_trait_haste fx_stats <= 1)%Q.
Proof. vm_compute. split; [reflexivity|]. split; [reflexivity | discriminate]. Qed.
