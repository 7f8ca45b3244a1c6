(** * Rotations for C74 *)

From Coq Require Import ZArith QArith List String Bool Lia Permutation.
From Verif Require Import Base BaseFacts Float Strings Types Lookup Stats Library StatusEffect Events Rotation Fixtures SpecPlay SpecTimeline SpecRun SpecLater
  SpecReplay SpecShuffle RunCounter ReplayCase.
Import ListNotations.
Open Scope string_scope.
Open Scope Z_scope.

Definition tap (name : string) (targets : option string) : call := mkCall name None None targets.

(** A channel of 10 s, which another press ends. *)
Definition sh_channel : skill :=
  mkSkill "Spray" CNone (COne (fx_timing 0 650 0)) CNone CNone (COne (mkChanneling (Fin 10000) [] Inf)) (TTuple []) (TTuple []) [] true [] true (TTuple []) "".
Definition sh_library : library := Eval vm_compute in match add_skill fx_library sh_channel with Ok l => l | Err _ => fx_library end.
Definition sh_start : res builder := rb_init fx_stats sh_library None true false (Some 0) (RWTuple []) DEFAULT_TARGET.
Definition sh_l : list instr := [PressAt 0 (tap "Spray" None); PressAt 3 (tap "Hit" None); PressAt 9 (tap "Hit" None)].
Definition sh_l' : list instr := [PressAt 3 (tap "Hit" None); PressAt 0 (tap "Spray" None); PressAt 9 (tap "Hit" None)].
Definition sh_run (l : list instr) : res builder := let* b := sh_start in follow b l.
Definition sh_b0 : builder := fst (ran sh_start).
Definition sh_b : builder := fst (ran (sh_run sh_l)).
Definition sh_r : builder := snd (ran (sh_run sh_l)).
Definition sh_b' : builder := fst (ran (sh_run sh_l')).
Definition sh_r' : builder := snd (ran (sh_run sh_l')).


Lemma sh_ok : sh_start = Ok sh_b0 /\ follow sh_b0 sh_l = Ok sh_b /\ follow sh_b0 sh_l' = Ok sh_b'.
Proof. split; [vm_compute; reflexivity|]. split; vm_compute; reflexivity. Qed.
Lemma sh_runs : get_skill_timing sh_b = Ok sh_r /\ get_skill_timing sh_b' = Ok sh_r'.
Proof. split; vm_compute; reflexivity. Qed.
Lemma sh_reordered : reordered sh_l sh_l'.
Proof. split; [apply perm_swap|reflexivity]. Qed.
Lemma sh_shown : map (fun e => (ev_primary e, sk_name (ev_skill e))) (timeline sh_r)
  = [(0, "Spray"); (3000, "Hit"); (3500, "Auto"); (6940, "Auto"); (9000, "Hit")].
Proof. vm_compute. reflexivity. Qed.
Lemma sh_shown' : map (fun e => (ev_primary e, sk_name (ev_skill e))) (timeline sh_r')
  = [(0, "Spray"); (3000, "Hit"); (3500, "Auto"); (9000, "Auto"); (9000, "Hit")].
Proof. vm_compute. reflexivity. Qed.
Lemma sh_distinct : distinct_times sh_b.
Proof. vm_compute. repeat constructor; simpl; intuition discriminate. Qed.

(** *** Ties: two presses at the same time are pressed in the order of their calls. *)
Definition ti_start : res builder := fx_builder false false (Some 0) (RWTuple []).
Definition ti_l : list instr := [PressAt 0 (tap "Boost" None); PressAt 0 (tap "Hit" None)].
Definition ti_l' : list instr := [PressAt 0 (tap "Hit" None); PressAt 0 (tap "Boost" None)].
Definition ti_run (l : list instr) : res builder := let* b := ti_start in follow b l.
Definition ti_b0 : builder := fst (ran ti_start).
Definition ti_b : builder := fst (ran (ti_run ti_l)).
Definition ti_r : builder := snd (ran (ti_run ti_l)).
Definition ti_b' : builder := fst (ran (ti_run ti_l')).
Definition ti_r' : builder := snd (ran (ti_run ti_l')).

Lemma ti_ok : ti_start = Ok ti_b0 /\ follow ti_b0 ti_l = Ok ti_b /\ follow ti_b0 ti_l' = Ok ti_b'.
Proof. split; [vm_compute; reflexivity|]. split; vm_compute; reflexivity. Qed.
Lemma ti_runs : get_skill_timing ti_b = Ok ti_r /\ get_skill_timing ti_b' = Ok ti_r'.
Proof. split; vm_compute; reflexivity. Qed.
Lemma ti_reordered : reordered ti_l ti_l'.
Proof. split; [apply perm_swap|reflexivity]. Qed.
Lemma ti_shown : map pr_name (get_button_press_timing ti_r) = ["Boost"; "Hit"].
Proof. vm_compute. reflexivity. Qed.
Lemma ti_shown' : map pr_name (get_button_press_timing ti_r') = ["Hit"; "Boost"].
Proof. vm_compute. reflexivity. Qed.
Lemma ti_autos : b_autos ti_b0 = false.
Proof. vm_compute. reflexivity. Qed.

(** *** The case: presses of both kinds on several targets, with a downtime. *)
Definition sc_start : res builder := fx_builder false false None (RWTuple [(dec 64 10, dec 66 10, None)]).
Definition sc_l : list instr :=
  [PressAt (dec 21 10) (tap "Quick" (Some "Add")); NextPress (tap "Boost" None) 1; PressAt (-1) (tap "Burn" None); NextPress (tap "Hit" (Some "Add, Other")) 3; PressAt 5 (tap "Cast" None)].
Definition sc_l' : list instr :=
  [NextPress (tap "Boost" None) 1; NextPress (tap "Hit" (Some "Add, Other")) 3; PressAt (-1) (tap "Burn" None); PressAt 5 (tap "Cast" None); PressAt (dec 21 10) (tap "Quick" (Some "Add"))].
Definition sc_run (l : list instr) : res builder := let* b := sc_start in follow b l.
Definition sc_b0 : builder := fst (ran sc_start).
Definition sc_b : builder := fst (ran (sc_run sc_l)).
Definition sc_r : builder := snd (ran (sc_run sc_l)).
Lemma sc_ok : sc_start = Ok sc_b0 /\ follow sc_b0 sc_l = Ok sc_b /\ get_skill_timing sc_b = Ok sc_r.
Proof. split; [vm_compute; reflexivity|]. split; vm_compute; reflexivity. Qed.
Lemma sc_reordered : reordered sc_l sc_l'.
Proof.
  split; [|reflexivity]. unfold sc_l, sc_l'.
  etransitivity; [apply perm_swap|]. apply perm_skip.
  match goal with |- Permutation [?a; ?b; ?c; ?d] _ =>
    transitivity [c; a; b; d]; [apply Permutation_sym; transitivity [a; c; b; d]; [apply perm_swap|apply perm_skip, perm_swap]|]; apply perm_skip;
    transitivity [b; a; d]; [apply perm_swap|apply perm_skip, perm_swap] end.
Qed.
Lemma sc_distinct : distinct_times sc_b.
Proof. vm_compute. repeat constructor; simpl; intuition discriminate. Qed.
Lemma sc_autos : b_autos sc_b0 = false.
Proof. vm_compute. reflexivity. Qed.
Lemma sc_shown : map (fun e => (ev_primary e, sk_name (ev_skill e), ev_targets e)) (timeline sc_r)
  = [(-400, "Burn", ["Default Target"]); (-400, "Burn (tick)", ["Default Target"]); (-400, "Burn (tick)", ["Default Target"]);
     (-400, "Burn (tick)", ["Default Target"]); (-400, "Burn (tick)", ["Default Target"]); (-400, "Burn (tick)", ["Default Target"]);
     (600, "Boost", ["Default Target"]); (1250, "Hit", ["Add"; "Other"]); (2700, "Quick", ["Add"]); (3690, "Hit", ["Add"; "Other"]);
     (6130, "Hit", ["Add"; "Other"])].
Proof. vm_compute. reflexivity. Qed.

(** *** The refutations *)
Lemma autos_order_refuted :
  ~ (forall b0 l l' b b' r r',
       reachable b0 -> reordered l l' -> follow b0 l = Ok b -> follow b0 l' = Ok b' -> distinct_times b ->
       get_skill_timing b = Ok r -> get_skill_timing b' = Ok r' -> timeline r' = timeline r).
Proof.
  intros H. destruct sh_ok as (S & F & F'). destruct sh_runs as (R & R').
  pose proof (H sh_b0 sh_l sh_l' sh_b sh_b' sh_r sh_r' (proj1 (fresh_reachable _ _ _ _ _ _ _ _ _ S)) sh_reordered F F' sh_distinct R R') as E.
  pose proof sh_shown as A. pose proof sh_shown' as B. rewrite E, A in B. discriminate B.
Qed.
Lemma ties_order_refuted :
  ~ (forall b0 l l' b b' r r',
       reachable b0 -> b_autos b0 = false -> reordered l l' -> follow b0 l = Ok b -> follow b0 l' = Ok b' ->
       get_skill_timing b = Ok r -> get_skill_timing b' = Ok r' -> get_button_press_timing r' = get_button_press_timing r).
Proof.
  intros H. destruct ti_ok as (S & F & F'). destruct ti_runs as (R & R').
  pose proof (H ti_b0 ti_l ti_l' ti_b ti_b' ti_r ti_r' (proj1 (fresh_reachable _ _ _ _ _ _ _ _ _ S)) ti_autos ti_reordered F F' R R') as E.
  pose proof ti_shown as A. pose proof ti_shown' as B. rewrite E, A in B. discriminate B.
Qed.
