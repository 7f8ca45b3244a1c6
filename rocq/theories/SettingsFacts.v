(** * A builder's settings *)

From Coq Require Import ZArith QArith List String Bool.
From Verif Require Import Base Float Types Lookup Stats Library Events Rotation BaseFacts SpecTimeline SpecSettings.
Import ListNotations.
Open Scope Z_scope.

Lemma init_in l t c : in_downtime (init_windows l) t c <-> asked_at l t c.
Proof.
  unfold in_downtime, asked_at, init_windows. split.
  - intros (r & Hr & H). apply in_map_iff in Hr as ([[s e] k] & <- & Hr). exists s, e, k. split; [exact Hr | exact H].
  - intros (s & e & k & Hr & H). eexists. split; [apply in_map_iff; exists (s, e, k); split; [reflexivity | exact Hr] | exact H].
Qed.

Lemma windows_asked st lib snap autos tr start w dt b0 b target t c :
  rb_init st lib snap autos tr start w dt = Ok b0 -> b_windows b = b_windows b0 -> In target (b_targets b) ->
  (in_downtime (windows_of b target) t c <-> asked_at (asked w target) t c).
Proof.
  unfold rb_init. intros H E I. apply bind_ok in H as (prio & _ & H). injection H as <-. cbn [b_windows] in E. unfold windows_of. rewrite E.
  destruct w as [l|d]; cbn [init_downtime_windows asked].
  - destruct (in_dec String.string_dec target (b_targets b)); [apply init_in | contradiction].
  - rewrite (dget_map (fun kv => init_windows (snd kv)) target d). destruct (dget target d) as [l|]; cbn; [apply init_in|].
    split; [intros (r & [] & _) | intros (s & e & k & [] & _)].
Qed.

Lemma windows_kept b b' :
  (forall name m job n tg, add_next b name m job n tg = Ok b' -> b_windows b' = b_windows b)
  /\ (forall t name m job tg, add b t name m job tg = Ok b' -> b_windows b' = b_windows b)
  /\ (forall x, b_windows (set_enable_autos b x) = b_windows b) /\ (forall x, b_windows (set_ignore_trailing_dots b x) = b_windows b).
Proof.
  unfold add_next, add. split; [|split; [|split; reflexivity]].
  - intros name m job n tg H. destruct (process_targets b tg) as [a al]. apply bind_ok in H as (s & _ & H). injection H as <-. reflexivity.
  - intros t name m job tg H. destruct (process_targets b tg) as [a al]. apply bind_ok in H as (s & _ & H). injection H as <-. reflexivity.
Qed.

Lemma set_as_init st lib snap autos tr start w dt b :
  rb_init st lib snap autos tr start w dt = Ok b ->
  (forall x, rb_init st lib snap x tr start w dt = Ok (set_enable_autos b x))
  /\ (forall x, rb_init st lib snap autos x start w dt = Ok (set_ignore_trailing_dots b x)).
Proof.
  unfold rb_init. intros H. apply bind_ok in H as (prio & -> & H). injection H as <-. split; reflexivity.
Qed.

Lemma set_any_time b f : (exists x, f = fun b => set_enable_autos b x) \/ (exists x, f = fun b => set_ignore_trailing_dots b x) ->
  (forall name m job n tg, add_next (f b) name m job n tg = then_set f (add_next b name m job n tg))
  /\ (forall t name m job tg, add (f b) t name m job tg = then_set f (add b t name m job tg)).
Proof.
  intros [(x & ->)|(x & ->)]; split; intros; unfold add_next, add, process_targets;
    cbn [set_enable_autos set_ignore_trailing_dots b_default_target b_targets b_library b_stats job_or_default];
    unfold job_or_default; cbn [set_enable_autos set_ignore_trailing_dots b_stats];
    (destruct (get_skill (b_library b) _ _) as [s|]; reflexivity).
Qed.

Lemma init_keeps st lib snap autos tr start w dt b :
  rb_init st lib snap autos tr start w dt = Ok b ->
  b_stats b = st /\ b_library b = lib /\ b_snap_dots b = snap /\ b_autos b = autos /\ b_ignore_trailing b = tr /\ b_fight_start b = start
  /\ b_default_target b = dt /\ b_timed b = [] /\ b_sequence b = [] /\ b_targets b = [] /\ q_heap (b_queue b) = [] /\ get_button_press_timing b = [].
Proof. unfold rb_init. intros H. apply bind_ok in H as (prio & _ & H). injection H as <-. repeat (split; [reflexivity|]). reflexivity. Qed.
