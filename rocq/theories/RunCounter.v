(** * Rotations on which a plausible claim fails *)

From Coq Require Import ZArith QArith List String Bool Lia Permutation Sorted.
From Verif Require Import Base Float Types Lookup StatusEffect Stats Library Events Rotation SpecQueue SpecPlay SpecTimeline SpecDots
  SpecRun RunProps ApiFacts Fixtures.
Import ListNotations.
Open Scope string_scope.
Open Scope Z_scope.

(** Rotations written as a chain of calls. *)
Definition and_next (r : res builder) (name : string) (n : Z) (targets : option string) : res builder :=
  let* b := r in add_next b name None None n targets.
Definition and_add (r : res builder) (t : Q) (name : string) (m : option modifier) (targets : option string) : res builder :=
  let* b := r in add b t name m None targets.
Definition all_built (r : res builder) : Prop := forall b, r = Ok b -> built b.
Lemma init_built st lib snap autos trailing start w target : all_built (rb_init st lib snap autos trailing start w target).
Proof. intros b H. eapply built_init, H. Qed.
Lemma and_next_built r name n targets : all_built r -> all_built (and_next r name n targets).
Proof. intros R b H. unfold and_next in H. destruct r as [b0|e]; [|discriminate H]. eapply built_add_next; [apply R; reflexivity | exact H]. Qed.
Lemma and_add_built r t name m targets : all_built r -> all_built (and_add r t name m targets).
Proof. intros R b H. unfold and_add in H. destruct r as [b0|e]; [|discriminate H]. eapply built_add; [apply R; reflexivity | exact H]. Qed.

Definition cx_builder : res builder := fx_builder false false (Some 0) (RWTuple []).

Lemma add_ms_refuted :
  ~ (forall b k name m job targets b' x,
       add b (dec k 1000) name m job targets = Ok b' -> b_timed b' = (b_timed b ++ [x])%list -> tm_time x = k).
Proof.
  intros H. remember cx_builder as r eqn:R. vm_compute in R. destruct r as [b|e]; [|discriminate R].
  destruct (add b (dec 2010 1000) "Hit" None None None) as [b'|e] eqn:A.
  - pose proof (H b 2010 "Hit" None None None b') as H'.
    injection R as ->. vm_compute in A. injection A as <-.
    specialize (H' _ eq_refl eq_refl). vm_compute in H'. discriminate H'.
  - injection R as ->. vm_compute in A. discriminate A.
Qed.

(** Reading off a concrete run. *)
Definition ran (r : res builder) : builder * builder :=
  match r with
  | Ok b => match get_skill_timing b with Ok b' => (b, b') | Err _ => (b, b) end
  | Err _ => (mkBuilder fx_stats fx_library None false false None (WTuple []) "" [] [] [] [] [] q_init [] [], mkBuilder fx_stats fx_library None false false None (WTuple []) "" [] [] [] [] [] q_init [] [])
  end.

(** One Burn, with a server tick offset of 2.01 s: the first tick comes at 2.009 s. *)
Definition cx_offset : res builder :=
  let* b := rb_init fx_stats fx_library (Some (dec 2010 1000)) false false (Some 0) (RWTuple []) DEFAULT_TARGET in
  add b 0 "Burn" None None None.
Definition cx_tick : event :=
  entry (tick_entry fx_burn_fu DEFAULT_TARGET 0 (0, 400, 1) 2009).

Lemma cx_offset_ok : cx_offset = Ok (fst (ran cx_offset)) /\ get_skill_timing (fst (ran cx_offset)) = Ok (snd (ran cx_offset)).
Proof. split; vm_compute; reflexivity. Qed.
Lemma cx_offset_built : built (fst (ran cx_offset)).
Proof.
  destruct cx_offset_ok as (E & _). remember (fst (ran cx_offset)) as b eqn:R. clear R. unfold cx_offset in E.
  destruct (rb_init fx_stats fx_library (Some (dec 2010 1000)) false false (Some 0) (RWTuple []) DEFAULT_TARGET) as [b0|e] eqn:I; [|discriminate E].
  cbn [bind] in E. eapply built_add; [eapply built_init, I | exact E].
Qed.
Lemma cx_tick_in : In cx_tick (timeline (snd (ran cx_offset))).
Proof. vm_compute. tauto. Qed.

Lemma offset_refuted :
  ~ (forall k b b' e t, built b -> b_snap_dots b = Some (dec k 1000) -> get_skill_timing b = Ok b' ->
       In e (timeline b') -> damages e DC_MAGICAL_DOT -> effect_time e t -> (3000 | t - k)).
Proof.
  intros H. assert (D : (3000 | 2009 - 2010)); [|destruct D as (z & D); lia].
  eapply H; [exact cx_offset_built | vm_compute; reflexivity | apply cx_offset_ok | exact cx_tick_in | |].
  - eexists. split; [vm_compute; reflexivity | reflexivity].
  - left. reflexivity.
Qed.

(** A Burn that applies at 0, and nothing else. *)
Definition cx_trailing : res builder :=
  let* b := fx_builder false true (Some 0) (RWTuple []) in
  add b 0 "Burn" (Some (mkModifier F_DEFAULT F_DEFAULT [] false false true None)) None None.
Lemma cx_trailing_ok : cx_trailing = Ok (fst (ran cx_trailing)) /\ get_skill_timing (fst (ran cx_trailing)) = Ok (snd (ran cx_trailing)).
Proof. split; vm_compute; reflexivity. Qed.
Lemma cx_trailing_built : built (fst (ran cx_trailing)).
Proof.
  destruct cx_trailing_ok as (E & _). remember (fst (ran cx_trailing)) as b eqn:R. clear R. unfold cx_trailing in E.
  destruct (fx_builder false true (Some 0) (RWTuple [])) as [b0|e] eqn:I; [|discriminate E].
  cbn [bind] in E. eapply built_add; [eapply built_init, I | exact E].
Qed.
Lemma trailing_refuted :
  ~ (forall b b' e t, built b -> b_ignore_trailing b = true -> b_autos b = false -> b_fight_start b <> None ->
       get_skill_timing b = Ok b' -> In e (timeline b') -> effect_time e t ->
       exists e' t', In e' (timeline b') /\ ~ damages e' DC_MAGICAL_DOT /\ effect_time e' t' /\ t <= t').
Proof.
  intros H.
  destruct (H _ (snd (ran cx_trailing)) (entry (tick_entry fx_burn_fu DEFAULT_TARGET 4 (0, 0, 1) 12000)) 12000 cx_trailing_built) as (e & t & I & N & T & L);
    [vm_compute; reflexivity | vm_compute; reflexivity | vm_compute; discriminate | apply cx_trailing_ok | vm_compute; tauto | left; reflexivity|].
  remember (timeline (snd (ran cx_trailing))) as l eqn:El. vm_compute in El. subst l.
  repeat (destruct I as [<-|I]; [try (destruct T as [T|[T1 T]]; vm_compute in T; (discriminate T || (subst t; lia) || (injection T as <-; apply N; eexists; split; vm_compute; reflexivity))) |]).
  destruct I.
Qed.

(** Downtime for all targets from 0 to 1 s; after one run, a press on a new target. *)
Definition cx_window_1 : res builder :=
  let* b := fx_builder false false (Some 0) (RWTuple [(0%Q, 1%Q, None)]) in
  add b (q 2) "Quick" None None None.
Definition cx_window_2 : res builder :=
  let* b1 := get_skill_timing (fst (ran cx_window_1)) in
  add b1 0 "Quick" None None (Some "New").

Lemma windows_refuted :
  ~ (forall w b b1 b2 b' e c t,
       built b -> b_windows b = WTuple w -> get_skill_timing b = Ok b1 ->
       (exists time name m job targets, add b1 time name m job targets = Ok b2) ->
       get_skill_timing b2 = Ok b' ->
       In e (timeline b') -> damages e c -> effect_time e t -> ~ in_downtime w t c).
Proof.
  intros H.
  assert (B : built (fst (ran cx_window_1))).
  { assert (E : cx_window_1 = Ok (fst (ran cx_window_1))) by (vm_compute; reflexivity).
    remember (fst (ran cx_window_1)) as b eqn:R. clear R. unfold cx_window_1 in E.
    destruct (fx_builder false false (Some 0) (RWTuple [(0%Q, 1%Q, None)])) as [b0|e] eqn:I; [|discriminate E].
    cbn [bind] in E. eapply built_add; [eapply built_init, I | exact E]. }
  eapply (H (init_windows [(0%Q, 1%Q, None)]) _ (snd (ran cx_window_1)) (fst (ran cx_window_2)) (snd (ran cx_window_2))
            (entry (plain_add 0 0 0 fx_ogcd default_modifier both ["New"])) DC_DIRECT 0 B).
  - vm_compute. reflexivity.
  - vm_compute. reflexivity.
  - exists 0%Q, "Quick", None, None, (Some "New"). vm_compute. reflexivity.
  - vm_compute. reflexivity.
  - vm_compute. tauto.
  - eexists. split; [vm_compute; reflexivity | reflexivity].
  - right. vm_compute. split; reflexivity.
  - eexists. split; [left; reflexivity|]. split; [vm_compute; discriminate|]. split; [vm_compute; reflexivity | left; reflexivity].
Qed.

(** The log of a rotation made of [add_next] calls. *)
Definition log_of (b : builder) : list played := match PlayFacts.sequence_log b with Ok l => l | Err _ => [] end.
Lemma log_of_played b : (exists l, PlayFacts.sequence_log b = Ok l) -> b_timed b = [] -> rotation_played b (log_of b) [].
Proof.
  intros (l & E) T. unfold log_of. rewrite E. apply LogFacts.sequence_log_spec in E as (S1 & S2 & S3 & S4 & tk & S5 & S6).
  split; [exact S1|]. split; [exact S4|]. split; [exists []; rewrite T; split; [reflexivity|]; split; constructor|].
  rewrite app_nil_r. split; [exact S2|]. split; [exact S3|]. exists tk. split; [exact S5|]. split; [exact S6 | constructor].
Qed.
