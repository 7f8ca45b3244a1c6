(** * C89: further buffs and attacks never delay the kill *)

From Coq Require Import ZArith QArith List String Bool Permutation.
From Verif Require Import Base Float Types Lookup Stats Library Events Rotation DamageBuild Damage KillTime GameLib SpecHit SpecKill SpecGame SpecPlay SpecRun SpecTimeline SpecLater SpecReplay SpecShuffle SpecAuto SpecIdle SpecCause SpecGear
  SpecBuff SpecStrike SpecReport SpecAid KillFacts HitProps AidFacts AidCase.
Import ListNotations.
Open Scope string_scope.
Open Scope Z_scope.

(** If every rotation has the hits it had before, helped at least as much and equally lucky, and
    perhaps further ones with any luck, no sample's kill comes later. *)
Theorem C89_kills hp rots rots' n argsort ks ks' : sorts argsort -> Forall2 aided rots rots' ->
  Forall (fun bu => draws_ok (snd bu)) rots -> Forall (fun bu => draws_ok (snd bu)) rots' ->
  estimate_kill_time hp rots n argsort = Ok ks -> estimate_kill_time hp rots' n argsort = Ok ks' ->
  exists deaths deaths', ks = reported deaths /\ ks' = reported deaths' /\ Forall2 not_earlier deaths' deaths.
Proof. exact (aided_kills hp rots rots' n argsort ks ks'). Qed.
Print Assumptions C89_kills.

(** Timed presses of support skills (C86) aid a rotation, *)
Theorem C89_buffs extra g st lib snap start w target b0 l b r hits hits' b1 :
  sane_library lib -> gear_nonneg g -> stats_of g = Ok st ->
  rb_init st lib snap false false start w target = Ok b0 -> follow b0 l = Ok b -> with_support extra b -> distinct_times b ->
  get_skill_timing b = Ok r -> Forall orderly (timeline r) -> distinct_places (timeline r) ->
  hits_with st lib snap false false start w target (unsupported extra b0 l) = Ok hits ->
  hits_with st lib snap false false start w target l = Ok hits' ->
  follow b0 (unsupported extra b0 l) = Ok b1 -> exists f, aided_by f b1 b.
Proof. exact (buffs_aid extra g st lib snap start w target b0 l b r hits hits' b1). Qed.
Print Assumptions C89_buffs.

(** and so do attacks that leave the other hits alone (C87). *)
Theorem C89_attacks g st lib snap autos autos' trailing start w target l l' b b' hits hits' own :
  sane_library lib -> gear_nonneg g -> stats_of g = Ok st ->
  rotation_with st lib snap autos trailing start w target l = Ok b -> hits_with st lib snap autos trailing start w target l = Ok hits ->
  rotation_with st lib snap autos' trailing start w target l' = Ok b' -> hits_with st lib snap autos' trailing start w target l' = Ok hits' ->
  Permutation (map unnumbered hits') (map unnumbered (own ++ hits)) -> exists f, aided_by f b b'.
Proof. exact (attacks_aid g st lib snap autos autos' trailing start w target l l' b b' hits hits' own). Qed.
Print Assumptions C89_attacks.

(** ** The shipped libraries *)

Theorem C89_shipped_buffs v lv extra g st lib snap start w target b0 l b r hits hits' b1 :
  create_skill_library v lv = Ok lib -> gear_nonneg g -> stats_of g = Ok st -> (forall n, extra n = true -> In n shipped_buffs) ->
  rb_init st lib snap false false start w target = Ok b0 -> follow b0 l = Ok b -> (forall x, In x (b_sequence b) -> extra (sk_name (sq_skill x)) = false) -> distinct_times b ->
  get_skill_timing b = Ok r -> Forall orderly (timeline r) -> distinct_places (timeline r) ->
  hits_with st lib snap false false start w target (unsupported extra b0 l) = Ok hits ->
  hits_with st lib snap false false start w target l = Ok hits' ->
  follow b0 (unsupported extra b0 l) = Ok b1 -> exists f, aided_by f b1 b.
Proof. exact (shipped_buffs_aid v lv extra g st lib snap start w target b0 l b r hits hits' b1). Qed.
Print Assumptions C89_shipped_buffs.

Theorem C89_shipped_autos v lv g st lib snap trailing start w target b0 l b r hits hits' b' :
  create_skill_library v lv = Ok lib -> gear_nonneg g -> stats_of g = Ok st -> (1 <= st_weapon_delay st)%Q ->
  rb_init st lib snap false trailing start w target = Ok b0 -> follow b0 l = Ok b ->
  get_skill_timing b = Ok r -> Forall orderly (timeline r) -> distinct_places (timeline r) ->
  hits_with st lib snap false trailing start w target l = Ok hits ->
  hits_with st lib snap true trailing start w target l = Ok hits' ->
  rotation_with st lib snap true trailing start w target l = Ok b' -> exists f, aided_by f b b'.
Proof. exact (shipped_autos_aid v lv g st lib snap trailing start w target b0 l b r hits hits' b'). Qed.
Print Assumptions C89_shipped_autos.

(** A Warrior, once with party buffs, once with autos: 50000 HP are only beaten with the
    buffs, 8000 HP two seconds earlier with autos. *)
Example C89_case : sorts stable_argsort /\ draws_ok ad_draws
  /\ (exists b b', Forall2 aided [(b, ad_draws)] [(b', ad_draws)] /\ ad_kill 50000 b = Ok [None] /\ ad_kill 50000 b' = Ok [Some (dec 6623 1000)])
  /\ (exists b b', Forall2 aided [(b, ad_draws)] [(b', ad_draws)] /\ ad_kill 8000 b = Ok [Some (dec 2591 1000)] /\ ad_kill 8000 b' = Ok [Some (dec 532 1000)]).
Proof. split; [exact stable_argsort_sorts|]. split; [exact ad_drawn|]. split; [exact ad_buffs_case|exact ad_autos_case]. Qed.
