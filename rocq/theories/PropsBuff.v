(** * C86: further buffs never lower the damage *)

From Coq Require Import ZArith QArith List String Bool Lia Permutation.
From Verif Require Import Base Heap HeapFacts StatusEffect Types Lookup Stats Library Events Rotation DamageBuild Damage GameLib Fixtures EventsFacts RunCounter SpecHit SpecGame SpecQueue SpecRun SpecLater SpecReplay SpecShuffle SpecTimeline
  SpecIdle SpecCause SpecGear SafeCase ShuffleCase CauseCase HitProps GearCase SpecBuff BuffFacts BuffDamage BuffTime BuffProps BuffCase BuffGame BuffShip.
Import ListNotations.
Open Scope string_scope.
Open Scope Z_scope.

(** The hits of a timeline with further events of support skills are those of the timeline
    without them, each with effects that help at least as much. *)
Theorem C86_hits extra st lib tk qu qu' tk1 tk1' q1 q1' l l' :
  q_inv qu -> q_inv qu' -> supported extra (q_heap qu) (q_heap qu') -> indifferent extra lib st (q_heap qu) ->
  Forall orderly (q_heap qu) -> distinct_places (q_heap qu) -> db_init st lib = Ok tk ->
  get_damage_instances tk qu = Ok (tk1, q1, l) -> get_damage_instances tk qu' = Ok (tk1', q1', l') -> boosted_hits l l'.
Proof. exact (buffs_keep_hits extra st lib tk qu qu' tk1 tk1' q1 q1' l l'). Qed.
Print Assumptions C86_hits.

(** Effects that help at least as much give at least as much damage, for every draw. *)
Theorem C86_damage g st x x' r :
  gear_nonneg g -> stats_of g = Ok st -> sane_hit x -> boosted_hit x x' -> row_of st x = Ok r ->
  exists r', row_of st x' = Ok r' /\ forall u, drawn u -> (fst (fst (sample_cell r u)) <= fst (fst (sample_cell r' u)))%Q.
Proof. exact (boosted_damage g st x x' r). Qed.
Print Assumptions C86_damage.

(** The calls without the timed presses of support skills build the same timeline without them. *)
Theorem C86_timed extra st lib snap start w target b0 l b r :
  rb_init st lib snap false false start w target = Ok b0 -> follow b0 l = Ok b -> with_support extra b -> distinct_times b ->
  get_skill_timing b = Ok r -> Forall orderly (q_heap (b_queue r)) ->
  exists b' r', follow b0 (unsupported extra b0 l) = Ok b' /\ get_skill_timing b' = Ok r'
    /\ supported extra (q_heap (b_queue r')) (q_heap (b_queue r)) /\ indifferent extra lib st (q_heap (b_queue r'))
    /\ Forall orderly (q_heap (b_queue r')) /\ q_inv (b_queue r) /\ q_inv (b_queue r').
Proof. exact (timed_supported extra st lib snap start w target b0 l b r). Qed.
Print Assumptions C86_timed.

(** From calls to damage: each hit of the rotation without the support is a hit of the rotation
    with it, of at least as much damage for every draw; there are no others. *)
Theorem C86_rotation extra g st lib snap start w target b0 l b r hits hits' :
  sane_library lib -> gear_nonneg g -> stats_of g = Ok st ->
  rb_init st lib snap false false start w target = Ok b0 -> follow b0 l = Ok b -> with_support extra b -> distinct_times b ->
  get_skill_timing b = Ok r -> Forall orderly (timeline r) -> distinct_places (timeline r) ->
  hits_with st lib snap false false start w target (unsupported extra b0 l) = Ok hits ->
  hits_with st lib snap false false start w target l = Ok hits' ->
  exists a a', Permutation hits a /\ Permutation hits' a'
    /\ Forall2 (fun x x' => same_place x x' /\ forall c, row_of st x = Ok c -> exists c', row_of st x' = Ok c'
         /\ forall u, drawn u -> (fst (fst (sample_cell c u)) <= fst (fst (sample_cell c' u)))%Q) a a'.
Proof. exact (support_damage extra g st lib snap start w target b0 l b r hits hits'). Qed.
Print Assumptions C86_rotation.

Example C86_case :
  sane_library fx_library /\ gear_nonneg fx_gear /\ stats_of fx_gear = Ok fx_stats
  /\ rb_init fx_stats fx_library None false false None (RWTuple []) DEFAULT_TARGET = Ok bf_b0 /\ follow bf_b0 bf_l = Ok bf_b
  /\ with_support bf_extra bf_b /\ distinct_times bf_b /\ get_skill_timing bf_b = Ok bf_r /\ Forall orderly (timeline bf_r) /\ distinct_places (timeline bf_r)
  /\ hits_with fx_stats fx_library None false false None (RWTuple []) DEFAULT_TARGET (unsupported bf_extra bf_b0 bf_l) = Ok bf_without
  /\ hits_with fx_stats fx_library None false false None (RWTuple []) DEFAULT_TARGET bf_l = Ok bf_with
  /\ List.length bf_with = 10%nat /\ map bonuses bf_with <> map bonuses bf_without.
Proof.
  destruct gr_gear as (G1 & G2 & _ & _ & G3 & _), bf_ok as (O1 & O2 & O3), bf_tidy as (T1 & T2), bf_damage as (D1 & D2), bf_shown as (S1 & S2).
  split; [exact G1|]. split; [exact G2|]. split; [exact G3|]. split; [exact O1|]. split; [exact O2|]. split; [exact bf_support|]. split; [exact bf_distinct|].
  split; [exact O3|]. split; [exact T1|]. split; [exact T2|]. split; [exact D2|]. split; [exact D1|].
  split; [exact (eq_trans (eq_sym (map_length bonuses bf_with)) (f_equal (@List.length _) S2))|].
  intros E. pose proof (eq_trans (eq_sym S2) (eq_trans E S1)) as E'. vm_compute in E'. discriminate E'.
Qed.

(** The shipped party buffs satisfy the hypotheses, at every patch and level, on every job. *)
Theorem C86_shipped v lv extra g st lib snap start w target b0 l b r hits hits' :
  create_skill_library v lv = Ok lib -> gear_nonneg g -> stats_of g = Ok st -> (forall n, extra n = true -> In n shipped_buffs) ->
  rb_init st lib snap false false start w target = Ok b0 -> follow b0 l = Ok b -> (forall x, In x (b_sequence b) -> extra (sk_name (sq_skill x)) = false) -> distinct_times b ->
  get_skill_timing b = Ok r -> Forall orderly (timeline r) -> distinct_places (timeline r) ->
  hits_with st lib snap false false start w target (unsupported extra b0 l) = Ok hits ->
  hits_with st lib snap false false start w target l = Ok hits' ->
  exists a a', Permutation hits a /\ Permutation hits' a'
    /\ Forall2 (fun x x' => same_place x x' /\ forall c, row_of st x = Ok c -> exists c', row_of st x' = Ok c'
         /\ forall u, drawn u -> (fst (fst (sample_cell c u)) <= fst (fst (sample_cell c' u)))%Q) a a'.
Proof. exact (shipped_support_damage v lv extra g st lib snap start w target b0 l b r hits hits'). Qed.
Print Assumptions C86_shipped.

(** A Warrior with a Dragoon, a Scholar and an Astrologian. *)
Example C86_shipped_case : exists st b0 b r hits hits',
  create_skill_library "7.05" 100 = Ok case_lib /\ gear_nonneg (case_gear "WAR") /\ stats_of (case_gear "WAR") = Ok st
  /\ (forall n, bs_extra n = true -> In n shipped_buffs)
  /\ rb_init st case_lib None false false (Some 0) (RWTuple []) "Boss" = Ok b0 /\ follow b0 bs_l = Ok b
  /\ (forall x, In x (b_sequence b) -> bs_extra (sk_name (sq_skill x)) = false) /\ distinct_times b
  /\ get_skill_timing b = Ok r /\ Forall orderly (timeline r) /\ distinct_places (timeline r)
  /\ hits_with st case_lib None false false (Some 0) (RWTuple []) "Boss" (unsupported bs_extra b0 bs_l) = Ok hits
  /\ hits_with st case_lib None false false (Some 0) (RWTuple []) "Boss" bs_l = Ok hits'
  /\ map shown hits = bs_plain /\ map shown hits' = bs_better.
Proof. exact bs_case. Qed.

(** *** Each condition is needed *)

(** An effect with one use, for any skill, goes to the further buff instead of the hit. *)
Theorem C86_counted_refuted : exists extra st lib snap start w target b0 l b r hits hits',
  rb_init st lib snap false false start w target = Ok b0 /\ follow b0 l = Ok b /\ only_support extra b /\ unranking extra b /\ distinct_times b
  /\ get_skill_timing b = Ok r /\ Forall orderly (timeline r) /\ distinct_places (timeline r)
  /\ hits_with st lib snap false false start w target (unsupported extra b0 l) = Ok hits
  /\ hits_with st lib snap false false start w target l = Ok hits' /\ ~ boosted_hits hits hits'.
Proof. exact counted_refuted. Qed.
Print Assumptions C86_counted_refuted.

(** A job's priority of effects lets the weaker buff hide a stronger one. *)
Theorem C86_ranked_refuted : exists extra st lib snap start w target b0 l b r hits hits',
  rb_init st lib snap false false start w target = Ok b0 /\ follow b0 l = Ok b /\ only_support extra b /\ uncounting extra b /\ distinct_times b
  /\ get_skill_timing b = Ok r /\ Forall orderly (timeline r) /\ distinct_places (timeline r)
  /\ hits_with st lib snap false false start w target (unsupported extra b0 l) = Ok hits
  /\ hits_with st lib snap false false start w target l = Ok hits' /\ ~ boosted_hits hits hits'.
Proof. exact ranked_refuted. Qed.
Print Assumptions C86_ranked_refuted.
