(** * The order of calls (property C74) *)

From Coq Require Import ZArith QArith List String Bool Permutation.
From Verif Require Import Base Float Strings Types Lookup Stats Library Events Rotation Fixtures SpecPlay SpecTimeline SpecRun SpecLater
  SpecReplay SpecShuffle ShuffleFacts ShuffleCase.
Import ListNotations.
Open Scope string_scope.
Open Scope Z_scope.

(** ** C74: timed presses may be added in any order *)

(** Without autos, when no two timed presses are at the same time: calls of [add] may be
    moved past each other and past calls of [add_next]: the calls and the run succeed as
    before, and give the same events and presses. *)
Theorem C74_order b0 l l' b r :
  b_autos b0 = false -> reordered l l' -> follow b0 l = Ok b -> distinct_times b -> get_skill_timing b = Ok r ->
  exists b' r', follow b0 l' = Ok b' /\ get_skill_timing b' = Ok r' /\ same_run r r'.
Proof. exact (shuffled b0 l l' b r). Qed.
Print Assumptions C74_order.

(** Among presses at the same time the order of the calls can show. *)
Theorem C74_ties_refuted :
  ~ (forall b0 l l' b b' r r',
       reachable b0 -> b_autos b0 = false -> reordered l l' -> follow b0 l = Ok b -> follow b0 l' = Ok b' ->
       get_skill_timing b = Ok r -> get_skill_timing b' = Ok r' -> get_button_press_timing r' = get_button_press_timing r).
Proof. exact ties_order_refuted. Qed.
Print Assumptions C74_ties_refuted.

(** With autos it is false, even when all times differ: where a channel stops holding autos
    back is read off the timed presses in the order in which they were added. *)
Theorem C74_autos_refuted :
  ~ (forall b0 l l' b b' r r',
       reachable b0 -> reordered l l' -> follow b0 l = Ok b -> follow b0 l' = Ok b' -> distinct_times b ->
       get_skill_timing b = Ok r -> get_skill_timing b' = Ok r' -> timeline r' = timeline r).
Proof. exact autos_order_refuted. Qed.
Print Assumptions C74_autos_refuted.

(** *** Cases *)

(** Presses of both kinds, one before the fight, on several targets, with a downtime. *)
Example C74_case :
  exists b0 l l' b r,
    l <> l' /\ b_autos b0 = false /\ reordered l l' /\ follow b0 l = Ok b /\ distinct_times b /\ get_skill_timing b = Ok r
    /\ map (fun e => (ev_primary e, sk_name (ev_skill e), ev_targets e)) (timeline r)
       = [(-400, "Burn", ["Default Target"]); (-400, "Burn (tick)", ["Default Target"]); (-400, "Burn (tick)", ["Default Target"]);
          (-400, "Burn (tick)", ["Default Target"]); (-400, "Burn (tick)", ["Default Target"]); (-400, "Burn (tick)", ["Default Target"]);
          (600, "Boost", ["Default Target"]); (1250, "Hit", ["Add"; "Other"]); (2700, "Quick", ["Add"]); (3690, "Hit", ["Add"; "Other"]);
          (6130, "Hit", ["Add"; "Other"])].
Proof.
  exists sc_b0, sc_l, sc_l', sc_b, sc_r. destruct sc_ok as (_ & F & R).
  split; [unfold sc_l, sc_l'; congruence|]. split; [exact sc_autos|]. split; [exact sc_reordered|].
  split; [exact F|]. split; [exact sc_distinct|]. split; [exact R|exact sc_shown].
Qed.

(** The tie and the channel of the refutations. *)
Example C74_tie_case :
  map pr_name (get_button_press_timing ti_r) = ["Boost"; "Hit"] /\ map pr_name (get_button_press_timing ti_r') = ["Hit"; "Boost"].
Proof. split; [exact ti_shown|exact ti_shown']. Qed.
Example C74_autos_case :
  map (fun e => (ev_primary e, sk_name (ev_skill e))) (timeline sh_r)
    = [(0, "Spray"); (3000, "Hit"); (3500, "Auto"); (6940, "Auto"); (9000, "Hit")]
  /\ map (fun e => (ev_primary e, sk_name (ev_skill e))) (timeline sh_r')
    = [(0, "Spray"); (3000, "Hit"); (3500, "Auto"); (9000, "Auto"); (9000, "Hit")].
Proof. split; [exact sh_shown|exact sh_shown']. Qed.
