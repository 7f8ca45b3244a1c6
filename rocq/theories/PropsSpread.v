(** * C82: an enemy more does not change the damage to the others *)

From Coq Require Import ZArith QArith List String Bool Permutation.
From Verif Require Import Base Float Strings Types Lookup Stats Library StatusEffect Channeling JobResource Combo Events EventsFacts
  Rotation DamageBuild Fixtures SpecPlay SpecTimeline SpecRun RunCounter ApiFacts SpecCause CauseFacts CauseCase SpecSpread SpreadFacts SpreadCase.
Import ListNotations.
Open Scope string_scope.
Open Scope Z_scope.

(** Newcomers join events that snapshot and apply at once: the others take the same damage. *)
Theorem C82_at_once_partial new tk qu qu' tk1 tk1' q1 q1' l l' :
  q_inv qu -> q_inv qu' -> newcomers_join at_once new (q_heap qu) (q_heap qu') -> Forall orderly (q_heap qu) -> distinct_places (q_heap qu) ->
  get_damage_instances tk qu = Ok (tk1, q1, l) -> get_damage_instances tk qu' = Ok (tk1', q1', l') ->
  Permutation l (without new l').
Proof. exact (others_keep_damage new tk qu qu' tk1 tk1' q1 q1' l l'). Qed.
Print Assumptions C82_at_once_partial.

(** *** A case: a buff, a debuff, an instant on two enemies and on four, and hits on both *)
Definition c82_start (t : string) : res builder :=
  and_add (and_add (and_add (and_add (and_add sp_builder (q 0) "Boost" None None) (q 1) "Weaken" None (Some "B")) (q 2) "Quick" None (Some t))
    (q 3) "Hit" None (Some "B")) (q 5) "Quick" None None.
Definition c82_new (x : string) : bool := String.eqb x "C" || String.eqb x "D".
Example C82_case_runs :
  sp_runs (c82_start "A, B") (c82_start "A, B, C, D") (fst (ran (c82_start "A, B"))) (fst (ran (c82_start "A, B, C, D")))
    (snd (ran (c82_start "A, B"))) (snd (ran (c82_start "A, B, C, D"))) (sp_damage (c82_start "A, B")) (sp_damage (c82_start "A, B, C, D")).
Proof. split; [|split; [|split; [|split; [|split]]]]; vm_compute; reflexivity. Qed.
Example C82_case_hypotheses :
  newcomers_join at_once c82_new (q_heap (b_queue (snd (ran (c82_start "A, B"))))) (q_heap (b_queue (snd (ran (c82_start "A, B, C, D")))))
  /\ distinct_places (q_heap (b_queue (snd (ran (c82_start "A, B"))))).
Proof.
  split; [|apply apart_sound; vm_compute; reflexivity].
  apply (extras_join c82_new at_once _ _ [[]; []; ["C"; "D"]; []; []]); [vm_compute; reflexivity|vm_compute; reflexivity|].
  intros e x J N. vm_compute in J. repeat (destruct J as [J|J]; [injection J as <- <-; first [destruct (N eq_refl)|reflexivity]|]). destruct J.
Qed.
Example C82_case :
  map (fun i => fst (outline i)) (snd (sp_damage (c82_start "A, B")))
  = [(2000, "Quick", "A"); (2135, "Quick", "B"); (3500, "Hit", "B"); (5000, "Quick", "A")]
  /\ map (fun i => fst (outline i)) (snd (sp_damage (c82_start "A, B, C, D")))
  = [(2000, "Quick", "A"); (2135, "Quick", "B"); (2270, "Quick", "C"); (2405, "Quick", "D"); (3500, "Hit", "B"); (5000, "Quick", "A")]
  /\ without c82_new (snd (sp_damage (c82_start "A, B, C, D"))) = snd (sp_damage (c82_start "A, B")).
Proof. split; [|split]; vm_compute; reflexivity. Qed.

(** *** Events that apply later than they snapshot *)

(** A skill that only grants a buff, pressed on an enemy more, grants it once more, 135 ms later:
    the buff lasts longer, and a hit on another enemy gains it. *)
Theorem C82_longer_refuted :
  exists new b b' r r' tk tk1 tk1' q1 q1' l l' i i',
    built b /\ built b' /\ get_skill_timing b = Ok r /\ get_skill_timing b' = Ok r'
    /\ distinct_places (q_heap (b_queue r))
    /\ newcomers_join (fun e => sk_damage (ev_skill e) = CNone) new (q_heap (b_queue r)) (q_heap (b_queue r'))
    /\ get_damage_instances tk (b_queue r) = Ok (tk1, q1, l) /\ get_damage_instances tk (b_queue r') = Ok (tk1', q1', l')
    /\ In i l /\ In i' (without new l') /\ same_hit i i' /\ (bonus i < bonus i')%Q.
Proof. exact buff_lasts_longer. Qed.
Print Assumptions C82_longer_refuted.

(** A skill that only deals damage, on an enemy more, ends 135 ms too soon what should still
    hold: a hit of another skill loses its buff. *)
Theorem C82_sooner_refuted :
  exists new b b' r r' tk tk1 tk1' q1 q1' l l' i i',
    built b /\ built b' /\ get_skill_timing b = Ok r /\ get_skill_timing b' = Ok r'
    /\ distinct_places (q_heap (b_queue r))
    /\ newcomers_join (fun e => sk_buff (ev_skill e) = CNone /\ sk_debuff (ev_skill e) = CNone) new (q_heap (b_queue r)) (q_heap (b_queue r'))
    /\ get_damage_instances tk (b_queue r) = Ok (tk1, q1, l) /\ get_damage_instances tk (b_queue r') = Ok (tk1', q1', l')
    /\ In i (without new l') /\ In i' l /\ same_hit i i' /\ (bonus i < bonus i')%Q.
Proof. exact buff_ends_sooner. Qed.
Print Assumptions C82_sooner_refuted.
