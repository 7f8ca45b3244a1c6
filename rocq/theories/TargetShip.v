(** * Debuffs of the shipped jobs (C76) *)

From Coq Require Import ZArith QArith List String Bool Lia.
From Verif Require Import Base BaseFacts Float Strings Types Lookup Stats Library StatusEffect Events Rotation SpecTimeline SpecGame SpecHit SpecAuto SpecRun SpecSafe SpecReplay SpecShuffle
  RunProps AutoFacts GameLib GameProps SafeCheck SafeFacts SafeGame SafeCase ShuffleCase SpecTarget TargetFacts TargetCase.
Import ListNotations.
Open Scope string_scope.
Open Scope Z_scope.

Lemma follow_declared s m l fu : get_follow_up_skills s m = Ok l -> In fu l -> In fu (follow_ups_of s).
Proof.
  unfold get_follow_up_skills, tspec_get, follow_ups_of. destruct (sk_follow_ups s) as [l0|d]; [intros [= <-] I; exact I|].
  destruct d as [|kv d]; [intros [= <-] []|]. intros F I.
  apply bind_ok in F as (k & _ & F). unfold of_option in F. destruct (cget k (kv :: d)) as [x|] eqn:E; [|discriminate].
  injection F as ->. apply in_flat_map. clear - E I. revert E. induction (kv :: d) as [|[k0 x0] d0 IH]; cbn; [discriminate|].
  destruct (cond_eqb k k0); intros E.
  - injection E as ->. exists (k0, l). cbn. auto.
  - destruct (IH E) as (x & A & B). eauto.
Qed.
(** What a rotation plays is part of a skill of the library. *)
Lemma plays_part b s : built b -> plays b s -> exists n j s0, get_skill (b_library b) n j = Ok s0 /\ part_of s s0.
Proof.
  intros B P. pose proof (built_reachable b B) as R.
  assert (K : forall s0, In s0 (skills_of b) -> exists n j s1, get_skill (b_library b) n j = Ok s1 /\ s1 = s0).
  { intros s0 I. destruct (reach_skills b R s0 I) as (n & j & G). eauto. }
  assert (T : forall x, In x (b_timed b) -> In (tm_skill x) (skills_of b)) by (intros x I; apply in_or_app; right; apply in_map, I).
  assert (S : forall x, In x (b_sequence b) -> In (sq_skill x) (skills_of b)) by (intros x I; apply in_or_app; left; apply in_map, I).
  destruct P as [x I|x I|x m l fu I F J|x m l fu I F J|k l fu es I J|s A].
  - destruct (K _ (T x I)) as (n & j & s1 & G & ->). exists n, j, (tm_skill x). split; [exact G|constructor].
  - destruct (K _ (S x I)) as (n & j & s1 & G & ->). exists n, j, (sq_skill x). split; [exact G|constructor].
  - destruct (K _ (T x I)) as (n & j & s1 & G & ->). exists n, j, (tm_skill x). split; [exact G|].
    econstructor; [exact (follow_declared _ _ _ _ F J)|constructor].
  - destruct (K _ (S x I)) as (n & j & s1 & G & ->). exists n, j, (sq_skill x). split; [exact G|].
    econstructor; [exact (follow_declared _ _ _ _ F J)|constructor].
  - rewrite (proj1 (built_fresh b B)) in I. destruct I.
  - apply auto_skill_spec, auto_from in A as (n & _ & G). exists n, (st_job (b_stats b)), s. split; [exact G|constructor].
Qed.
Lemma q0b_spec x : q0b x = true -> x = 0%Q.
Proof. destruct x as [[|p|p] [d|d|]]; cbn; intros H; try discriminate H; reflexivity. Qed.
Lemma forced_default x : forced_eqb x F_DEFAULT = true -> x = F_DEFAULT.
Proof. destruct x; cbn; intros H; try discriminate H; reflexivity. Qed.
Lemma shipped_apart v lv b : create_skill_library v lv = Ok (b_library b) -> built b -> debuffs_apart b.
Proof.
  intros C B s m sp P E. destruct (plays_part b s B P) as (n & j & s0 & G & Q). pose proof (shipped_part _ _ _ _ _ _ _ C G Q) as K.
  unfold run_part_ok in K. apply andb_true_iff in K as [K _]. apply andb_true_iff in K as [_ K]. unfold apart_ok in K. apply andb_true_iff in K as [K _].
  rewrite forallb_forall in K. specialize (K sp (cspec_declared _ _ _ E)). apply andb_true_iff in K as [U N]. split.
  - unfold untimelyb in U. rewrite !andb_true_iff in U. destruct U as [[[[U1 U2] U3] U4] U5]. split; [apply q0b_spec, U1|]. split; [apply q0b_spec, U2|].
    split; [apply negb_true_iff, U3|]. split; apply forced_default; assumption.
  - intros s' m' sp' P' E' I. destruct (plays_part b s' B P') as (n' & j' & s0' & G' & Q'). pose proof (shipped_part _ _ _ _ _ _ _ C G' Q') as K'.
    unfold run_part_ok in K'. apply andb_true_iff in K' as [K' _]. apply andb_true_iff in K' as [_ K']. unfold apart_ok in K'. apply andb_true_iff in K' as [_ K'].
    rewrite forallb_forall in K'. specialize (K' sp' (cspec_declared _ _ _ E')). rewrite forallb_forall in K'. specialize (K' _ I). rewrite N in K'. discriminate K'.
Qed.

(** ** A rotation of shipped skills on a default target, and on a boss of another name *)
Lemma calls_stay l : forall b0 b, built b0 -> follow b0 l = Ok b -> built b /\ b_library b = b_library b0.
Proof.
  induction l as [|i l IH]; intros b0 b B F; [injection F as <-; split; [exact B|reflexivity]|].
  unfold follow in F. cbn [foldM] in F. apply bind_ok in F as (b1 & E & F).
  assert (X : built b1 /\ b_library b1 = b_library b0).
  { destruct i as [c n|t c]; cbn [carry_out] in E.
    - split; [exact (built_add_next _ _ _ _ _ _ _ B E)|]. unfold add_next in E. destruct (process_targets b0 (c_targets c)) as [tg all].
      apply bind_ok in E as (s & _ & E). injection E as <-. reflexivity.
    - split; [exact (built_add _ _ _ _ _ _ _ B E)|]. unfold add in E. destruct (process_targets b0 (c_targets c)) as [tg all].
      apply bind_ok in E as (s & _ & E). injection E as <-. reflexivity. }
  destruct X as [B1 L1]. destruct (IH b1 b B1 F) as [B2 L2]. split; [exact B2|congruence].
Qed.
Definition st_l : list instr := [NextPress (tap "Broil IV" None) 1; NextPress (tap "Chain Stratagem" None) 1; NextPress (tap "Broil IV" None) 1; PressAt 8 (tap "Broil IV" (Some "Add"))].
Definition st_check : res (list (Z * string) * list (Z * string * list string)) :=
  let* st := stats_of (case_gear "SCH") in
  let* b0 := rb_init st case_lib None false false (Some 0) (RWTuple []) DEFAULT_TARGET in
  let* b := follow b0 st_l in
  let* r := get_skill_timing b in
  Ok (map (fun x => (tm_time x, sk_name (tm_skill x))) (b_timed b), map (fun e => (ev_primary e, sk_name (ev_skill e), ev_targets e)) (timeline r)).
Lemma st_checked : st_check = Ok ([(8000, "Broil IV")],
  [(1000, "Broil IV", ["Default Target"]); (1600, "Chain Stratagem", ["Default Target"]); (3500, "Broil IV", ["Default Target"]); (9000, "Broil IV", ["Add"])]).
Proof. vm_compute. reflexivity. Qed.
Lemma st_case : exists b r,
  create_skill_library "7.05" 100 = Ok (b_library b) /\ built b /\ ties_agree b /\ get_skill_timing b = Ok r
  /\ line_up r = [(1000, "Broil IV", ["Default Target"]); (1600, "Chain Stratagem", ["Default Target"]); (3500, "Broil IV", ["Default Target"]); (9000, "Broil IV", ["Add"])].
Proof.
  pose proof st_checked as K. unfold st_check in K. apply bind_ok in K as (st & S & K). apply bind_ok in K as (b0 & I & K).
  apply bind_ok in K as (b & F & K). apply bind_ok in K as (r & R & K). apply (f_equal (fun x => match x with Ok y => y | Err _ => ([], []) end)) in K. cbn beta iota in K.
  pose proof (f_equal fst K) as T. pose proof (f_equal snd K) as Sh. cbn [fst snd] in T, Sh.
  destruct (calls_stay _ _ _ (built_init _ _ _ _ _ _ _ _ _ I) F) as [B L].
  exists b, r. unfold rb_init in I. apply bind_ok in I as (w & _ & I).
  apply (f_equal (fun x => match x with Ok y => y | Err _ => b0 end)) in I. cbn beta iota in I.
  split; [rewrite L, <- I; exact case_created|]. split; [exact B|].
  split; [apply (timed_ties b _ T); repeat constructor; simpl; intuition discriminate|]. split; [exact R | exact Sh].
Qed.
