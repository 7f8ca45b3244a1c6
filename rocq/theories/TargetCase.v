(** * Rotations for C76 *)

From Coq Require Import ZArith QArith List String Bool Lia.
From Verif Require Import Base BaseFacts Float Strings Types Lookup Stats Library StatusEffect Events Rotation DamageBuild Damage Relabel Fixtures SpecPlay SpecTimeline
  SpecRun SpecReplay SpecShuffle RunProps RunCounter ReplayCase ShuffleCase SpecTarget TargetFacts.
Import ListNotations.
Open Scope string_scope.
Open Scope Z_scope.

(** *** A case: a debuff, DoTs, autos and a downtime on two adds and the default target. *)
Definition tg_init (w : raw_windows) (target : string) : res builder := rb_init fx_stats fx_library None true false None w target.
Definition tg_windows : raw_windows := RWDict [("Add", [(dec 32 10, dec 38 10, None)])].
Definition tg_l : list instr :=
  [NextPress (tap "Weaken" (Some "Add")) 1; NextPress (tap "Hit" (Some "Add, Other")) 2; PressAt 6 (tap "Burn" (Some "Add")); PressAt 6 (tap "Cast" None)].
Definition tg_f : string -> string := exchange "Add" "Zed".
Definition tg_l' : list instr :=
  [NextPress (tap "Weaken" (Some "Zed")) 1; NextPress (tap "Hit" (Some "Zed, Other")) 2; PressAt 6 (tap "Burn" (Some "Zed")); PressAt 6 (tap "Cast" None)].
Definition tg_run : res builder := let* b := tg_init tg_windows DEFAULT_TARGET in follow b tg_l.
Definition tg_b : builder := fst (ran tg_run).
Definition tg_r : builder := snd (ran tg_run).
Lemma tg_ok : tg_run = Ok tg_b /\ get_skill_timing tg_b = Ok tg_r.
Proof. split; vm_compute; reflexivity. Qed.
Lemma tg_home : tg_f DEFAULT_TARGET = DEFAULT_TARGET.
Proof. reflexivity. Qed.
Lemma tg_named : Forall2 (instr_as tg_f DEFAULT_TARGET) tg_l tg_l'.
Proof. repeat constructor. Qed.
Lemma tg_renamed : (let* b := tg_init (RWDict [("Zed", [(dec 32 10, dec 38 10, None)])]) DEFAULT_TARGET in follow b tg_l') = Ok (builder_as tg_f tg_b).
Proof. vm_compute. reflexivity. Qed.
Lemma timed_ties b l :
  map (fun x => (tm_time x, sk_name (tm_skill x))) (b_timed b) = l -> NoDup l -> ties_agree b.
Proof.
  intros <- N x y X Y T S. unfold ties_agree. revert N X Y. induction (b_timed b) as [|z k IH]; intros N X Y; [destruct X|].
  inversion N as [|? ? N1 N2]; subst. destruct X as [<-|X], Y as [<-|Y]; [reflexivity| | |exact (IH N2 X Y)].
  - destruct N1. rewrite T, S. apply (in_map (fun x => (tm_time x, sk_name (tm_skill x)))), Y.
  - destruct N1. rewrite <- T, <- S. apply (in_map (fun x => (tm_time x, sk_name (tm_skill x)))), X.
Qed.
Lemma tg_ties : ties_agree tg_b.
Proof.
  apply (timed_ties _ [(6000, "Burn"); (6000, "Cast")]); [vm_compute; reflexivity|]. repeat constructor; cbn; intuition discriminate.
Qed.
Definition line_up (b : builder) : list (Z * string * list string) := map (fun e => (ev_primary e, sk_name (ev_skill e), ev_targets e)) (timeline b).
Lemma tg_shown : line_up tg_r
  = [(-1150, "Weaken", ["Add"]); (-500, "Hit", ["Add"; "Other"]); (0, "Auto", ["Add"]); (1940, "Hit", ["Add"; "Other"]); (4850, "Burn", ["Add"]);
     (4850, "Burn (tick)", ["Add"]); (4850, "Burn (tick)", ["Add"]); (4850, "Burn (tick)", ["Add"]); (4850, "Burn (tick)", ["Add"]);
     (4850, "Burn (tick)", ["Add"]); (5810, "Cast", ["Default Target"]); (6880, "Auto", ["Default Target"]); (10320, "Auto", ["Default Target"]);
     (13760, "Auto", ["Default Target"])].
Proof. vm_compute. reflexivity. Qed.

(** *** Debuffs that time nothing: the default target takes another name. *)
Definition nm_l : list instr := [NextPress (tap "Boost" None) 1; NextPress (tap "Weaken" (Some "Default Target, Add")) 1; NextPress (tap "Hit" (Some "Add")) 1; PressAt 7 (tap "Hit" None)].
Definition nm_f : string -> string := exchange DEFAULT_TARGET "Boss".
Definition nm_l' : list instr := [NextPress (tap "Boost" None) 1; NextPress (tap "Weaken" (Some "Boss, Add")) 1; NextPress (tap "Hit" (Some "Add")) 1; PressAt 7 (tap "Hit" None)].
Definition nm_run : res builder := let* b := tg_init (RWTuple []) DEFAULT_TARGET in follow b nm_l.
Definition nm_b : builder := fst (ran nm_run).
Definition nm_r : builder := snd (ran nm_run).
Lemma nm_ok : nm_run = Ok nm_b /\ get_skill_timing nm_b = Ok nm_r.
Proof. split; vm_compute; reflexivity. Qed.
Lemma nm_named : Forall2 (instr_as nm_f DEFAULT_TARGET) nm_l nm_l'.
Proof. repeat constructor. Qed.
Lemma nm_renamed : (let* b := tg_init (RWTuple []) "Boss" in follow b nm_l') = Ok (builder_as nm_f nm_b).
Proof. vm_compute. reflexivity. Qed.
Lemma nm_ties : ties_agree nm_b.
Proof. apply (timed_ties _ [(7000, "Hit")]); [vm_compute; reflexivity|]. repeat constructor; cbn; intuition discriminate. Qed.
(** Whatever it plays is one of these. *)
Lemma nm_plays s : plays nm_b s -> s = fx_hit \/ s = fx_buff \/ s = fx_debuff \/ s = fx_auto.
Proof.
  assert (T : map tm_skill (b_timed nm_b) = [fx_hit]) by (vm_compute; reflexivity).
  assert (S : map sq_skill (b_sequence nm_b) = [fx_buff; fx_debuff; fx_hit]) by (vm_compute; reflexivity).
  assert (D : b_dots nm_b = []) by (vm_compute; reflexivity).
  assert (A : auto_skill_of (b_library nm_b) (st_job (b_stats nm_b)) = Ok fx_auto) by (vm_compute; reflexivity).
  intros [x I|x I|x m l fu I F J|x m l fu I F J|k l fu es I J|s0 E].
  - apply (in_map tm_skill) in I. rewrite T in I. destruct I as [<-|[]]. auto.
  - apply (in_map sq_skill) in I. rewrite S in I. destruct I as [<-|[<-|[<-|[]]]]; auto.
  - apply (in_map tm_skill) in I. rewrite T in I. destruct I as [I|[]]. rewrite <- I in F. injection F as <-. destruct J.
  - apply (in_map sq_skill) in I. rewrite S in I. destruct I as [I|[I|[I|[]]]]; rewrite <- I in F; injection F as <-; destruct J.
  - rewrite D in I. destruct I.
  - rewrite A in E. injection E as <-. auto.
Qed.
Lemma nm_apart : debuffs_apart nm_b.
Proof.
  intros s m sp P E. apply nm_plays in P as [->|[->|[->| ->]]]; try discriminate E. injection E as <-. split; [repeat split; reflexivity|].
  intros s' m' sp' P' E'. apply nm_plays in P' as [->|[->|[->| ->]]]; try discriminate E'. injection E' as <-. intros [].
Qed.
Lemma nm_shown : line_up nm_r
  = [(-1800, "Boost", ["Default Target"]); (-1150, "Weaken", ["Default Target"; "Add"]); (-500, "Hit", ["Add"]); (0, "Auto", ["Add"]); (3440, "Auto", ["Add"]);
     (5200, "Hit", ["Default Target"])].
Proof. vm_compute. reflexivity. Qed.

(** *** A hastening debuff: the name of the default target matters *)
Definition sl_status : status_spec :=
  mkStatus (Fin 30000) (Fin 30000) Inf Inf 0 0 1 0 1 0 (dec 20 100) (Fin 0) 0 true [] None F_DEFAULT F_DEFAULT false false false false.
Definition sl_skill : skill := fx_buff_skill "Slow" CNone (COne sl_status).
Definition sl_library : library := Eval vm_compute in match add_skill fx_library sl_skill with Ok l => l | Err _ => fx_library end.
Definition sl_l : list instr := [NextPress (tap "Slow" None) 1; NextPress (tap "Hit" None) 3].
Definition sl_run (target : string) : res builder := let* b := rb_init fx_stats sl_library None false false (Some 0) (RWTuple []) target in follow b sl_l.
Definition sl_b : builder := fst (ran (sl_run DEFAULT_TARGET)).
Lemma sl_ok : sl_run DEFAULT_TARGET = Ok sl_b /\ get_skill_timing sl_b = Ok (snd (ran (sl_run DEFAULT_TARGET))).
Proof. split; vm_compute; reflexivity. Qed.
Lemma sl_renamed : sl_run "Boss" = Ok (builder_as nm_f sl_b).
Proof. vm_compute. reflexivity. Qed.
Lemma sl_ties : ties_agree sl_b.
Proof. intros x y I. vm_compute in I. destruct I. Qed.
Lemma sl_shown :
  rmap (fun r => map (fun e => (ev_primary e, sk_name (ev_skill e))) (timeline r)) (get_skill_timing sl_b) = Ok [(0, "Slow"); (650, "Hit"); (2600, "Hit"); (4550, "Hit")]
  /\ rmap (fun r => map (fun e => (ev_primary e, sk_name (ev_skill e))) (timeline r)) (get_skill_timing (builder_as nm_f sl_b)) = Ok [(0, "Slow"); (650, "Hit"); (3090, "Hit"); (5530, "Hit")].
Proof. split; vm_compute; reflexivity. Qed.

(** *** Presses of a skill at the same time: the names of their targets order them *)
Definition ti_l (a b : string) : list instr := [PressAt 1 (tap "Hit" (Some "C")); PressAt 1 (tap "Hit" (Some a)); PressAt 1 (tap "Hit" (Some b))].
Definition ti_f : string -> string := exchange "A" "B".
Definition ti_run (a b : string) : res builder := let* x := rb_init fx_stats fx_library None false false (Some 0) (RWTuple []) DEFAULT_TARGET in follow x (ti_l a b).
Definition ti_b : builder := fst (ran (ti_run "A" "B")).
Lemma ti_ok : ti_run "A" "B" = Ok ti_b /\ ti_run "B" "A" = Ok (builder_as ti_f ti_b).
Proof. split; vm_compute; reflexivity. Qed.
Lemma ti_shown :
  rmap (fun r => map (fun e => (ev_id e, ev_targets e)) (q_heap (b_queue r))) (get_skill_timing ti_b) = Ok [(0, ["C"]); (1, ["A"]); (2, ["B"])]
  /\ rmap (fun r => map (fun e => (ev_id e, ev_targets e)) (q_heap (b_queue r))) (get_skill_timing (builder_as ti_f ti_b)) = Ok [(0, ["C"]); (1, ["A"]); (2, ["B"])].
Proof. split; vm_compute; reflexivity. Qed.

Lemma follow_built l : forall b0 b, built b0 -> follow b0 l = Ok b -> built b.
Proof.
  induction l as [|i l IH]; intros b0 b B F; [injection F as <-; exact B|].
  unfold follow in F. cbn [foldM] in F. apply bind_ok in F as (b1 & E & F). apply (IH b1 b); [|exact F].
  destruct i as [c n|t c]; cbn [carry_out] in E; [exact (built_add_next _ _ _ _ _ _ _ B E)|exact (built_add _ _ _ _ _ _ _ B E)].
Qed.
Lemma nm_reachable : reachable nm_b.
Proof.
  destruct nm_ok as [E _]. unfold nm_run in E. apply bind_ok in E as (b0 & I & E). apply built_reachable. exact (follow_built _ _ _ (built_init _ _ _ _ _ _ _ _ _ I) E).
Qed.
Lemma sl_built : built sl_b.
Proof.
  destruct sl_ok as [E _]. unfold sl_run in E. apply bind_ok in E as (b0 & I & E). exact (follow_built _ _ _ (built_init _ _ _ _ _ _ _ _ _ I) E).
Qed.
Lemma ti_built : built ti_b.
Proof.
  destruct ti_ok as [E _]. unfold ti_run in E. apply bind_ok in E as (b0 & I & E). exact (follow_built _ _ _ (built_init _ _ _ _ _ _ _ _ _ I) E).
Qed.
Lemma default_counter :
  ~ (forall f b, keeps_apart f -> built b -> ties_agree b -> get_skill_timing (builder_as f b) = rmap (builder_as f) (get_skill_timing b)).
Proof.
  intros H. specialize (H nm_f sl_b (exchange_apart _ _) sl_built sl_ties). destruct sl_shown as [A B]. rewrite H in B.
  destruct (get_skill_timing sl_b) as [r|]; [|discriminate A]. cbn [rmap] in A, B. unfold timeline in A, B. cbn [builder_as b_queue queue_as q_heap] in B.
  rewrite map_map in A. rewrite !map_map in B. cbn [anon event_as ev_primary ev_skill] in A, B. rewrite A in B. discriminate B.
Qed.
Lemma ties_counter :
  ~ (forall f b, keeps_apart f -> built b -> f DEFAULT_TARGET = DEFAULT_TARGET -> get_skill_timing (builder_as f b) = rmap (builder_as f) (get_skill_timing b)).
Proof.
  intros H. specialize (H ti_f ti_b (exchange_apart _ _) ti_built eq_refl). destruct ti_shown as [A B]. rewrite H in B.
  destruct (get_skill_timing ti_b) as [r|]; [|discriminate A]. cbn [rmap] in A, B. cbn [builder_as b_queue queue_as q_heap] in B.
  rewrite map_map in B. injection A as A. injection B as B. cbn [event_as ev_id ev_targets] in B.
  apply (f_equal (map (fun p => (fst p, map ti_f (snd p))))) in A. rewrite map_map in A. cbn [fst snd] in A. rewrite A in B. discriminate B.
Qed.
