(** * C87: further attacks leave the other hits alone

    An attack that grants nothing (no buff, debuff, follow-up, combo or job resource),
    and whose uses nothing counts, does not change any other hit: not when, on whom or with
    which effects they land.  Proved for the damage builder, for enabling autos, for a
    timed press and for an oGCD that fits between two GCDs. *)

From Coq Require Import ZArith QArith List String Bool Permutation.
From Verif Require Import Base Float Types Lookup StatusEffect Stats Library Events Rotation DamageBuild Damage GameLib Fixtures SpecHit SpecGame SpecPlay SpecTimeline SpecRun SpecLater SpecReplay SpecShuffle
  SpecAuto SpecIdle SpecCause SpecGear SafeCase ShuffleCase SpecBuff BuffCase BuffShip SpecQueue EventsFacts SpecStrike StrikeFacts StrikeAuto StrikeTimed StrikeGame StrikeCase.
Import ListNotations.
Open Scope string_scope.
Open Scope Z_scope.

(** ** The damage builder: a timeline with further events *)

Theorem C87_hits st lib tk more qu qu' tk1 tk1' q1 q1' l l' :
  q_inv qu -> q_inv qu' -> joined_by more (q_heap qu) (q_heap qu') -> Forall (fun e => grants_nothing (ev_skill e)) more ->
  uncounted_by lib st more (q_heap qu) -> Forall orderly more -> Forall orderly (q_heap qu) -> distinct_places (q_heap qu) ->
  db_init st lib = Ok tk -> get_damage_instances tk qu = Ok (tk1, q1, l) -> get_damage_instances tk qu' = Ok (tk1', q1', l') ->
  further_hits more l l'.
Proof. exact (strikes_keep_hits st lib tk more qu qu' tk1 tk1' q1 q1' l l'). Qed.
Print Assumptions C87_hits.

(** The same hits are the same damage rows: the id of an event does not enter. *)
Theorem C87_rows st own l l' :
  Permutation (map unnumbered l') (map unnumbered (own ++ l)) -> Permutation (map (row_of st) l') (map (row_of st) (own ++ l)).
Proof. exact (rows_further st own l l'). Qed.
Print Assumptions C87_rows.

(** ** Autos *)

Theorem C87_autos st lib snap trailing start w target b0 l b r hits hits' :
  rb_init st lib snap false trailing start w target = Ok b0 -> follow b0 l = Ok b -> plain_autos b -> timely b ->
  get_skill_timing b = Ok r -> Forall orderly (timeline r) -> distinct_places (timeline r) ->
  hits_with st lib snap false trailing start w target l = Ok hits ->
  hits_with st lib snap true trailing start w target l = Ok hits' ->
  exists own, Permutation (map unnumbered hits') (map unnumbered (own ++ hits)) /\ forall i, In i own -> auto_skill b (di_skill i).
Proof. exact (autos_keep_hits st lib snap trailing start w target b0 l b r hits hits'). Qed.
Print Assumptions C87_autos.

(** Four autos among buffed hits and damage over time. *)
Example C87_autos_case :
  rb_init fx_stats fx_library None false false (Some 0) (RWTuple []) DEFAULT_TARGET = Ok sa_b0 /\ follow sa_b0 bf_l = Ok sa_b /\ plain_autos sa_b /\ timely sa_b
  /\ get_skill_timing sa_b = Ok sa_r /\ Forall orderly (timeline sa_r) /\ distinct_places (timeline sa_r)
  /\ hits_with fx_stats fx_library None false false (Some 0) (RWTuple []) DEFAULT_TARGET bf_l = Ok sa_hits
  /\ hits_with fx_stats fx_library None true false (Some 0) (RWTuple []) DEFAULT_TARGET bf_l = Ok sa_more
  /\ map bonuses sa_hits = [(500, "Hit", 1%Q); (900, "Burn (tick)", boosted); (900, "Burn", boosted); (2100, "Quick", boosted); (2940, "Hit", boosted);
       (3900, "Burn (tick)", boosted); (6200, "Quick", weakened); (6900, "Burn (tick)", boosted); (9900, "Burn (tick)", boosted); (12900, "Burn (tick)", boosted)]
  /\ map bonuses sa_more = [(500, "Hit", 1%Q); (600, "Auto", boosted); (900, "Burn (tick)", boosted); (900, "Burn", boosted); (2100, "Quick", boosted); (2940, "Hit", boosted);
       (3900, "Burn (tick)", boosted); (4040, "Auto", boosted); (6200, "Quick", weakened); (6900, "Burn (tick)", boosted); (7480, "Auto", weakened); (9900, "Burn (tick)", boosted);
       (10920, "Auto", weakened); (12900, "Burn (tick)", boosted)].
Proof.
  destruct sa_ok as (A & B & C & D & E), sa_tidy as (F & G), sa_shown as (S1 & S2).
  split; [exact A|]. split; [exact B|]. split; [exact sa_plain|]. split; [exact sa_timely|]. split; [exact C|]. split; [exact F|]. split; [exact G|].
  split; [exact D|]. split; [exact E|]. split; [exact S1|exact S2].
Qed.

(** The shipped libraries satisfy the hypotheses, at every patch and level, on every job. *)
Theorem C87_shipped v lv g st lib snap trailing start w target b0 l b r hits hits' :
  create_skill_library v lv = Ok lib -> stats_of g = Ok st -> (1 <= st_weapon_delay st)%Q ->
  rb_init st lib snap false trailing start w target = Ok b0 -> follow b0 l = Ok b ->
  get_skill_timing b = Ok r -> Forall orderly (timeline r) -> distinct_places (timeline r) ->
  hits_with st lib snap false trailing start w target l = Ok hits ->
  hits_with st lib snap true trailing start w target l = Ok hits' ->
  exists own, Permutation (map unnumbered hits') (map unnumbered (own ++ hits)) /\ forall i, In i own -> auto_skill b (di_skill i).
Proof. exact (shipped_autos_keep_hits v lv g st lib snap trailing start w target b0 l b r hits hits'). Qed.
Print Assumptions C87_shipped.

(** A Warrior's autos among party buffs. *)
Example C87_shipped_case : exists st b0 b r hits hits',
  create_skill_library "7.05" 100 = Ok case_lib /\ stats_of (case_gear "WAR") = Ok st /\ (1 <= st_weapon_delay st)%Q
  /\ rb_init st case_lib None false true None (RWTuple []) "Boss" = Ok b0 /\ follow b0 bs_l = Ok b
  /\ get_skill_timing b = Ok r /\ Forall orderly (timeline r) /\ distinct_places (timeline r)
  /\ hits_with st case_lib None false true None (RWTuple []) "Boss" bs_l = Ok hits
  /\ hits_with st case_lib None true true None (RWTuple []) "Boss" bs_l = Ok hits'
  /\ map shown hits = sp_plain /\ map shown hits' = sp_more.
Proof. exact sp_case. Qed.

(** ** An attack of the rotation *)

(** At a given time. *)
Theorem C87_timed st lib snap start w target b0 l1 t c l2 s b r hits hits' :
  rb_init st lib snap false false (Some start) w target = Ok b0 -> follow b0 (l1 ++ PressAt t c :: l2)%list = Ok b -> distinct_times b ->
  get_skill (b_library b0) (c_name c) (match c_job c with Some j => j | None => st_job (b_stats b0) end) = Ok s ->
  grants_nothing s -> uncounted b (sk_name s) ->
  get_skill_timing b = Ok r -> Forall orderly (timeline r) -> distinct_places (timeline r) ->
  hits_with st lib snap false false (Some start) w target (l1 ++ l2)%list = Ok hits ->
  hits_with st lib snap false false (Some start) w target (l1 ++ PressAt t c :: l2)%list = Ok hits' ->
  exists own, Permutation (map unnumbered hits') (map unnumbered (own ++ hits)) /\ forall i, In i own -> di_skill i = s.
Proof. exact (timed_keeps_hits st lib snap start w target b0 l1 t c l2 s b r hits hits'). Qed.
Print Assumptions C87_timed.

Example C87_timed_case :
  rb_init fx_stats fx_library None false false (Some 0) (RWTuple []) DEFAULT_TARGET = Ok sa_b0 /\ follow sa_b0 (st_l1 ++ PressAt (dec 21 10) st_quick :: st_l2)%list = Ok sa_b /\ distinct_times sa_b
  /\ get_skill (b_library sa_b0) (c_name st_quick) (match c_job st_quick with Some j => j | None => st_job (b_stats sa_b0) end) = Ok fx_ogcd
  /\ grants_nothing fx_ogcd /\ uncounted sa_b (sk_name fx_ogcd)
  /\ get_skill_timing sa_b = Ok sa_r /\ Forall orderly (timeline sa_r) /\ distinct_places (timeline sa_r)
  /\ hits_with fx_stats fx_library None false false (Some 0) (RWTuple []) DEFAULT_TARGET (st_l1 ++ st_l2)%list = Ok st_fewer
  /\ hits_with fx_stats fx_library None false false (Some 0) (RWTuple []) DEFAULT_TARGET (st_l1 ++ PressAt (dec 21 10) st_quick :: st_l2)%list = Ok sa_hits
  /\ map bonuses st_fewer = [(500, "Hit", 1%Q); (900, "Burn (tick)", boosted); (900, "Burn", boosted); (2940, "Hit", boosted);
       (3900, "Burn (tick)", boosted); (6200, "Quick", weakened); (6900, "Burn (tick)", boosted); (9900, "Burn (tick)", boosted); (12900, "Burn (tick)", boosted)].
Proof.
  destruct sa_ok as (A & B & C & D & _), st_ok as (T & S & H), sa_tidy as (F & G).
  split; [exact A|]. split; [exact B|]. split; [exact T|]. split; [exact S|]. split; [exact (proj2 fx_strikes)|]. split; [apply sa_uncounted|].
  split; [exact C|]. split; [exact F|]. split; [exact G|]. split; [exact H|]. split; [exact D|exact st_shown].
Qed.

(** In sequence, where it does not hold the next press up: an oGCD, locked no longer than
    to the following GCD. *)
Theorem C87_next st lib snap start w target b0 l1 c l2 s b1 b r hits hits' :
  rb_init st lib snap false false (Some start) w target = Ok b0 -> follow b0 l1 = Ok b1 -> follow b0 (l1 ++ NextPress c 1 :: l2)%list = Ok b ->
  get_skill (b_library b0) (c_name c) (match c_job c with Some j => j | None => st_job (b_stats b0) end) = Ok s ->
  grants_nothing s -> sk_is_GCD s = false -> uncounted b (sk_name s) -> nonneg_locks b -> fits b (List.length (b_sequence b1)) ->
  get_skill_timing b = Ok r -> Forall orderly (timeline r) -> distinct_places (timeline r) ->
  hits_with st lib snap false false (Some start) w target (l1 ++ l2)%list = Ok hits ->
  hits_with st lib snap false false (Some start) w target (l1 ++ NextPress c 1 :: l2)%list = Ok hits' ->
  exists own, Permutation (map unnumbered hits') (map unnumbered (own ++ hits)) /\ forall i, In i own -> di_skill i = s.
Proof. exact (next_keeps_hits st lib snap start w target b0 l1 c l2 s b1 b r hits hits'). Qed.
Print Assumptions C87_next.

Example C87_next_case :
  rb_init fx_stats fx_library None false false (Some 0) (RWTuple []) DEFAULT_TARGET = Ok sa_b0 /\ follow sa_b0 sn_l1 = Ok sn_b1 /\ follow sa_b0 (sn_l1 ++ NextPress st_quick 1 :: sn_l2)%list = Ok sn_b
  /\ get_skill (b_library sa_b0) (c_name st_quick) (match c_job st_quick with Some j => j | None => st_job (b_stats sa_b0) end) = Ok fx_ogcd
  /\ grants_nothing fx_ogcd /\ sk_is_GCD fx_ogcd = false /\ uncounted sn_b (sk_name fx_ogcd) /\ nonneg_locks sn_b /\ fits sn_b (List.length (b_sequence sn_b1))
  /\ get_skill_timing sn_b = Ok sn_r /\ Forall orderly (timeline sn_r) /\ distinct_places (timeline sn_r)
  /\ hits_with fx_stats fx_library None false false (Some 0) (RWTuple []) DEFAULT_TARGET (sn_l1 ++ sn_l2)%list = Ok sn_fewer
  /\ hits_with fx_stats fx_library None false false (Some 0) (RWTuple []) DEFAULT_TARGET (sn_l1 ++ NextPress st_quick 1 :: sn_l2)%list = Ok sn_hits
  /\ map bonuses sn_fewer = [(400, "Burn", 1%Q); (400, "Burn (tick)", 1%Q); (2940, "Hit", boosted); (3400, "Burn (tick)", 1%Q); (5380, "Hit", boosted); (5530, "Quick", boosted);
       (6400, "Burn (tick)", 1%Q); (9400, "Burn (tick)", 1%Q); (12400, "Burn (tick)", 1%Q)]
  /\ map bonuses sn_hits = [(400, "Burn", 1%Q); (400, "Burn (tick)", 1%Q); (1300, "Quick", boosted); (2940, "Hit", boosted); (3400, "Burn (tick)", 1%Q); (5380, "Hit", boosted);
       (5530, "Quick", boosted); (6400, "Burn (tick)", 1%Q); (9400, "Burn (tick)", 1%Q); (12400, "Burn (tick)", 1%Q)].
Proof.
  destruct sa_ok as (A & _), st_ok as (_ & S & _), sn_ok as (B & C & D & E & E'), sn_tidy as (F & G), sn_shown as (S1 & S2).
  split; [exact A|]. split; [exact B|]. split; [exact C|]. split; [exact S|]. split; [exact (proj2 fx_strikes)|]. split; [reflexivity|]. split; [exact sn_uncounted|].
  split; [exact sn_locks|]. split; [exact sn_fits|]. split; [exact D|]. split; [exact F|]. split; [exact G|]. split; [exact E|]. split; [exact E'|]. split; [exact S1|exact S2].
Qed.

(** ** Counted uses *)

(** An effect with one use, for any skill, goes to an auto instead of the attack it was meant
    for: without [uncounted], enabling autos changes another hit. *)
Theorem C87_counted_refuted : exists st lib snap start w target b0 l b r hits hits',
  rb_init st lib snap false false start w target = Ok b0 /\ follow b0 l = Ok b /\ timely b
  /\ (forall au, auto_skill b au -> grants_nothing au /\ forall spec, sk_timing au = COne spec -> 0 <= application_delay spec)
  /\ get_skill_timing b = Ok r /\ Forall orderly (timeline r) /\ distinct_places (timeline r)
  /\ hits_with st lib snap false false start w target l = Ok hits
  /\ hits_with st lib snap true false start w target l = Ok hits'
  /\ ~ exists own, Permutation (map unnumbered hits') (map unnumbered (own ++ hits)).
Proof. exact autos_counted. Qed.
Print Assumptions C87_counted_refuted.
