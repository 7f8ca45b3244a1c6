(** * Rotations for C73 *)

From Coq Require Import ZArith QArith List String Bool Lia.
From Verif Require Import Base BaseFacts Float Strings Types Lookup Stats Library Events Rotation Csv Export Fixtures SpecPlay SpecTimeline SpecRun
  SpecReplay RunCounter ReplayFacts ApiFacts.
Import ListNotations.
Open Scope string_scope.
Open Scope Z_scope.

Definition started (r : res builder) : builder := fst (ran r).
Lemma fresh_reachable st lib snap autos trailing start w target b :
  rb_init st lib snap autos trailing start w target = Ok b -> reachable b /\ no_calls b /\ b_autos b = autos.
Proof.
  intros H. split; [eapply reach_init, H|]. unfold rb_init in H. inv_bind H. injection H as <-. repeat split; reflexivity.
Qed.

(** *** Autos: a press by [add] holds back autos while casting, one by [add_next] does not. *)
Definition rp_calls : list call :=
  [mkCall "Hit" None None None; mkCall "Cast" None None None; mkCall "Cast" None None None; mkCall "Cast" None None None].
Definition rp_times : list Q := [0; dec 244 100; dec 488 100; dec 732 100]%Q.
Definition rp_start : res builder := fx_builder true false (Some 0) (RWTuple []).
Definition rp_seq : res builder := let* b := rp_start in one_by_one b rp_calls.
Definition rp_tim : res builder := let* b := rp_start in at_times b (combine rp_calls rp_times).
Definition rp_b0 : builder := started rp_start.
Definition rp_b : builder := started rp_seq.
Definition rp_r : builder := snd (ran rp_seq).
Definition rp_b2 : builder := started rp_tim.
Definition rp_r2 : builder := snd (ran rp_tim).

Lemma rp_ok : rp_start = Ok rp_b0 /\ one_by_one rp_b0 rp_calls = Ok rp_b /\ at_times rp_b0 (combine rp_calls rp_times) = Ok rp_b2.
Proof. split; [|split]; vm_compute; reflexivity. Qed.
Lemma rp_runs : get_skill_timing rp_b = Ok rp_r /\ get_skill_timing rp_b2 = Ok rp_r2.
Proof. split; vm_compute; reflexivity. Qed.
Lemma rp_length : List.length (timeline rp_r) = 7%nat.
Proof. vm_compute. reflexivity. Qed.
Lemma rp_length2 : List.length (timeline rp_r2) = 6%nat.
Proof. vm_compute. reflexivity. Qed.
Lemma rp_presses : map pr_time (get_button_press_timing rp_r) = [0; 2440; 4880; 7320].
Proof. vm_compute. reflexivity. Qed.
Lemma rp_skills : map sq_skill (b_sequence rp_b) = [fx_hit; fx_cast; fx_cast; fx_cast] /\ b_timed rp_b = [].
Proof. split; vm_compute; reflexivity. Qed.
Definition fixed_lock (s : skill) : bool := match sk_timing s with COne ts => 0 <=? animation_lock ts | _ => false end.
Lemma fixed_locks b l : map sq_skill (b_sequence b) = l -> b_timed b = [] -> forallb fixed_lock l = true -> nonneg_locks b.
Proof.
  intros S T F s m spec H G. unfold skills_of in H. rewrite T, app_nil_r, S in H. rewrite forallb_forall in F. specialize (F s H).
  unfold fixed_lock in F. unfold get_timing_spec in G. destruct (sk_timing s) as [|ts|]; try discriminate F. cbn in G. injection G as <-. lia.
Qed.
Lemma rp_locks : nonneg_locks rp_b.
Proof. destruct rp_skills as (S & T). apply (fixed_locks _ _ S T). vm_compute. reflexivity. Qed.
Lemma reported_times d r ts : map (fun t => qtrunc (fmul 1000 t)) ts = map (fun p => pr_time p + d) (get_button_press_timing r) -> reported_at d r ts.
Proof.
  unfold reported_at. generalize (get_button_press_timing r) as l. induction ts as [|t ts IH]; intros l H; destruct l as [|p l]; try discriminate H; constructor.
  - injection H as H _. rewrite <- H. apply qtrunc_truncates.
  - apply IH. injection H as _ H. exact H.
Qed.
Lemma rp_reported : reported_at 0 rp_r rp_times.
Proof. apply reported_times. vm_compute. reflexivity. Qed.

Lemma autos_replay_refuted :
  ~ (forall b0 l b r ts,
       reachable b0 -> no_calls b0 -> b_fight_start b0 <> None -> one_by_one b0 l = Ok b -> nonneg_locks b ->
       get_skill_timing b = Ok r -> apart_presses r -> reported_at 0 r ts ->
       forall b2 r2, at_times b0 (combine l ts) = Ok b2 -> get_skill_timing b2 = Ok r2 -> timeline r2 = timeline r).
Proof.
  intros K. destruct rp_ok as (E0 & E1 & E2). destruct rp_runs as (R1 & R2). destruct (fresh_reachable _ _ _ _ _ _ _ _ _ E0) as (Re & Nc & _).
  assert (A : apart_presses rp_r) by (unfold apart_presses; rewrite rp_presses; repeat constructor; cbn; intuition discriminate).
  assert (F : b_fight_start rp_b0 <> None) by (vm_compute; discriminate).
  pose proof (K _ _ _ _ _ Re Nc F E1 rp_locks R1 A rp_reported _ _ E2 R2) as T. pose proof rp_length as L. rewrite <- T, rp_length2 in L. discriminate L.
Qed.

(** *** A press 1.001 s into the fight is printed and read again as 1.000 s. *)
Definition pp_start : res builder := fx_builder false false (Some 1001) (RWTuple []).
Definition pp_seq : res builder := let* b := pp_start in one_by_one b [mkCall "Hit" None None None].
Definition pp_b0 : builder := started pp_start.
Definition pp_b : builder := started pp_seq.
Definition pp_r : builder := snd (ran pp_seq).
Definition pp_tim : res builder := let* b := pp_start in populate_rotation b (Some (printed_rows pp_r)).
Definition pp_b2 : builder := started pp_tim.
Definition pp_r2 : builder := snd (ran pp_tim).
Lemma pp_ok : pp_start = Ok pp_b0 /\ one_by_one pp_b0 [mkCall "Hit" None None None] = Ok pp_b /\ populate_rotation pp_b0 (Some (printed_rows pp_r)) = Ok pp_b2.
Proof. split; [|split]; vm_compute; reflexivity. Qed.
Lemma pp_runs : get_skill_timing pp_b = Ok pp_r /\ get_skill_timing pp_b2 = Ok pp_r2.
Proof. split; vm_compute; reflexivity. Qed.
Lemma pp_presses : map pr_time (get_button_press_timing pp_r) = [1001] /\ map pr_time (get_button_press_timing pp_r2) = [1000].
Proof. split; vm_compute; reflexivity. Qed.
Lemma pp_skills : map sq_skill (b_sequence pp_b) = [fx_hit] /\ b_timed pp_b = [].
Proof. split; vm_compute; reflexivity. Qed.

(** Skills of the fixtures' library are found under their names. *)
Definition names_agree (lib : library) : bool :=
  forallb (fun jd => forallb (fun ns => String.eqb (fst ns) (sk_name (snd ns))) (snd jd)) (lib_skills lib).
Lemma names_agree_sound lib : names_agree lib = true -> named_lookup lib.
Proof.
  intros H n j s G. unfold get_skill in G. inv_bind G. unfold names_agree in H. rewrite forallb_forall in H.
  destruct (dget j (lib_skills lib)) as [d|] eqn:D; [|discriminate E]. injection E as ->. apply dget_in in D. specialize (H _ D). cbn in H.
  destruct (dget n a) as [s'|] eqn:D2; [|discriminate G]. injection G as ->. apply dget_in in D2. rewrite forallb_forall in H. specialize (H _ D2). cbn in H.
  apply String.eqb_eq in H. congruence.
Qed.
Lemma fx_named : named_lookup fx_library.
Proof. apply names_agree_sound. vm_compute. reflexivity. Qed.

Lemma printing_refuted :
  ~ (forall b0 l b r b2 r2,
       reachable b0 -> no_calls b0 -> b_autos b0 = false -> b_fight_start b0 <> None -> named_lookup (b_library b0) ->
       Forall reportable l -> one_by_one b0 l = Ok b -> nonneg_locks b -> get_skill_timing b = Ok r -> apart_presses r ->
       populate_rotation b0 (Some (printed_rows r)) = Ok b2 -> get_skill_timing b2 = Ok r2 ->
       get_button_press_timing r2 = get_button_press_timing r).
Proof.
  intros K. destruct pp_ok as (E0 & E1 & E2). destruct pp_runs as (R1 & R2). destruct (fresh_reachable _ _ _ _ _ _ _ _ _ E0) as (Re & Nc & Na).
  destruct pp_presses as (P1 & P2).
  assert (A : apart_presses pp_r) by (unfold apart_presses; rewrite P1; repeat constructor; cbn; intuition discriminate).
  assert (F : b_fight_start pp_b0 <> None) by (vm_compute; discriminate).
  assert (L : b_library pp_b0 = fx_library) by (vm_compute; reflexivity).
  assert (N : named_lookup (b_library pp_b0)) by (rewrite L; exact fx_named).
  assert (Rp : Forall reportable [mkCall "Hit" None None None]) by (constructor; [|constructor]; split; [reflexivity|]; split; [discriminate | left; reflexivity]).
  assert (Lk : nonneg_locks pp_b) by (destruct pp_skills as (S & T); apply (fixed_locks _ _ S T); vm_compute; reflexivity).
  pose proof (K _ _ _ _ _ _ Re Nc Na F N Rp E1 Lk R1 A E2 R2) as T. rewrite T in P2. rewrite P1 in P2. discriminate P2.
Qed.

(** *** A rotation with a buff, a DoT on two targets, a cast and downtime *)
Definition rc_calls : list call :=
  [mkCall "Boost" None None None; mkCall "Hit" None None None; mkCall "Burn" None None (Some "Add, Default Target");
   mkCall "Cast" (Some (modifier_with "Lucky")) None None; mkCall "Quick" None None (Some "Add")].
Definition rc_times : list Q := [0; dec 65 100; dec 309 100; dec 553 100; dec 709 100]%Q.
Definition rc_start : res builder := fx_builder false false (Some 0) (RWTuple [(dec 64 10, dec 66 10, None)]).
Definition rc_seq : res builder := let* b := rc_start in one_by_one b rc_calls.
Definition rc_b0 : builder := started rc_start.
Definition rc_b : builder := started rc_seq.
Definition rc_r : builder := snd (ran rc_seq).
Lemma rc_ok : rc_start = Ok rc_b0 /\ one_by_one rc_b0 rc_calls = Ok rc_b /\ get_skill_timing rc_b = Ok rc_r.
Proof. split; [|split]; vm_compute; reflexivity. Qed.
Lemma rc_presses : map pr_time (get_button_press_timing rc_r) = [0; 650; 3090; 5530; 7090].
Proof. vm_compute. reflexivity. Qed.
Lemma rc_skills : map sq_skill (b_sequence rc_b) = [fx_buff; fx_hit; fx_burn; fx_cast; fx_ogcd] /\ b_timed rc_b = [].
Proof. split; vm_compute; reflexivity. Qed.
Lemma rc_facts : reachable rc_b0 /\ no_calls rc_b0 /\ b_autos rc_b0 = false /\ b_fight_start rc_b0 <> None /\ nonneg_locks rc_b /\ apart_presses rc_r
  /\ reported_at 0 rc_r rc_times /\ List.length (timeline rc_r) = 12%nat.
Proof.
  destruct rc_ok as (E0 & _). destruct (fresh_reachable _ _ _ _ _ _ _ _ _ E0) as (Re & Nc & Na).
  split; [exact Re|]. split; [exact Nc|]. split; [exact Na|]. split; [vm_compute; discriminate|].
  split; [destruct rc_skills as (S & T); apply (fixed_locks _ _ S T); vm_compute; reflexivity|].
  split; [unfold apart_presses; rewrite rc_presses; repeat constructor; cbn; intuition discriminate|].
  split; [apply reported_times; vm_compute; reflexivity | vm_compute; reflexivity].
Qed.
(** The presses on the default target alone. *)
Definition re_calls : list call :=
  [mkCall "Boost" None None None; mkCall "Hit" None None None; mkCall "Burn" None (Some "test_job") None;
   mkCall "Cast" (Some (modifier_with "Lucky, Quick")) None None].
Definition re_seq : res builder := let* b := rc_start in one_by_one b re_calls.
Definition re_b : builder := started re_seq.
Definition re_r : builder := snd (ran re_seq).
Lemma re_ok : one_by_one rc_b0 re_calls = Ok re_b /\ get_skill_timing re_b = Ok re_r.
Proof. split; vm_compute; reflexivity. Qed.
Lemma re_presses : get_button_press_timing re_r
  = [mkPress 0 "Boost" "" ""; mkPress 650 "Hit" "" ""; mkPress 3090 "Burn" "" ""; mkPress 5530 "Cast" "" "Lucky,Quick"].
Proof. vm_compute. reflexivity. Qed.
Lemma re_skills : map sq_skill (b_sequence re_b) = [fx_buff; fx_hit; fx_burn; fx_cast] /\ b_timed re_b = [].
Proof. split; vm_compute; reflexivity. Qed.
Lemma re_facts : Forall reportable re_calls /\ named_lookup (b_library rc_b0) /\ nonneg_locks re_b /\ apart_presses re_r
  /\ (forall p, In p (get_button_press_timing re_r) -> survives (pr_time p)) /\ List.length (timeline re_r) = 7%nat.
Proof.
  split; [|split; [|split; [|split; [|split]]]].
  - assert (D : forall n j, j <> Some "" -> reportable (mkCall n None j None)) by (intros n j J; split; [reflexivity|]; split; [exact J | left; reflexivity]).
    do 3 (constructor; [apply D; discriminate|]). constructor; [|constructor].
    split; [reflexivity|]. split; [discriminate|]. right. exists "Lucky, Quick". split; [reflexivity | vm_compute; discriminate].
  - assert (L : b_library rc_b0 = fx_library) by (vm_compute; reflexivity). rewrite L. exact fx_named.
  - destruct re_skills as (S & T); apply (fixed_locks _ _ S T); vm_compute; reflexivity.
  - unfold apart_presses. rewrite re_presses. repeat constructor; cbn; intuition discriminate.
  - rewrite re_presses. intros p H.
    assert (Sv : forall t, qtrunc (fmul 1000 (fl (inject_Z t / 1000))) = t -> survives t) by (intros t E; unfold survives; rewrite <- E at 2; apply qtrunc_truncates).
    apply Sv. repeat (destruct H as [<-|H]; [vm_compute; reflexivity|]). destruct H.
  - vm_compute. reflexivity.
Qed.
