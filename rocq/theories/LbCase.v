(** * A limit break in a shipped rotation (C88) *)

From Coq Require Import ZArith NArith QArith Qround List String Ascii Bool Lia.
From Verif Require Import Base BaseFacts Float Types Lookup Stats Library Events Rotation DamageBuild Damage GameLib KillTime SpecHit SpecGame SpecReplay SpecShuffle HitProps SafeCase ShuffleCase SpecLb LbFacts.
Import ListNotations.
Open Scope string_scope.
Open Scope Z_scope.

Definition lb_call (c : string) : call := mkCall "LB 3" (Some (cond_modifier [c])) None None.
Definition lb_l (c : string) : list instr := [PressAt 0 (tap "Gyofu" None); PressAt 3 (lb_call c); PressAt 12 (tap "Gyofu" None)].
Definition lb_run (c : string) : res (builder * list (Z * list Q)) :=
  let* st := stats_of (case_gear "SAM") in
  let* b0 := rb_init st case_lib None false false (Some 0) (RWTuple []) "Boss" in
  let* b := follow b0 (lb_l c) in
  rotation_rows 2 b kx_draws.
Definition lb_shown (c : string) : res (list (Z * list Z)) :=
  let* (b', rows) := lb_run c in Ok (map (fun r => (fst r, map Qfloor (snd r))) rows).

(** The words of the example are conditions as the specification reads them. *)
Lemma num_123 : numeral "1234567" 1234567.
Proof.
  change "1234567" with ((((((String (digit_char 1) "" ++ String (digit_char 2) "") ++ String (digit_char 3) "") ++ String (digit_char 4) "") ++ String (digit_char 5) "") ++ String (digit_char 6) "") ++ String (digit_char 7) "").
  change 1234567%N with (10 * (10 * (10 * (10 * (10 * (10 * 1 + 2) + 3) + 4) + 5) + 6) + 7)%N.
  repeat first [apply num_one; reflexivity | apply num_more; [|reflexivity]].
Qed.
Lemma lb_words : written "Mean Damage:" 1234567 "Mean Damage: 1234567" /\ written "Exact Damage:" 1234567 "Exact Damage: 1234567 or so".
Proof.
  split; [exists "1234567", ""|exists "1234567", " or so"]; (split; [reflexivity|]; split; [exact num_123|]); [exact I|].
  intros d D E. assert (H : digit_of " " = Some d) by (rewrite E; apply digit_of_char, D). discriminate H.
Qed.
Lemma lb_case :
  lb_shown "Mean Damage: 1234567" = Ok [(850, [7503; 7898]); (9200, [1234567; 1234567]); (12850, [7503; 7898])]
  /\ lb_shown "Exact Damage: 1234567 or so" = lb_shown "Mean Damage: 1234567" /\ lb_shown "1234567" = Err RuntimeError.
Proof. split; [vm_compute; reflexivity|]. split; vm_compute; reflexivity. Qed.
