(** * C72: damage depends on the past only *)

From Coq Require Import ZArith QArith List String Bool Permutation.
From Verif Require Import Base Float Strings Types Lookup Stats Library StatusEffect Channeling JobResource Combo Events EventsFacts
  Rotation DamageBuild Fixtures SpecPlay SpecTimeline SpecRun RunCounter ApiFacts SpecLater LaterCase SpecCause CauseFacts CauseCase.
Import ListNotations.
Open Scope string_scope.
Open Scope Z_scope.

(** Two queues with the same events before [T] give the same damage before [T]. *)
Theorem C72_queue tk qu qu' tk1 tk1' q1 q1' l l' T :
  q_inv qu -> q_inv qu' -> Forall orderly (q_heap qu) -> Forall orderly (q_heap qu') ->
  distinct_places (q_heap qu) -> distinct_places (q_heap qu') ->
  Permutation (begun_before T (q_heap qu)) (begun_before T (q_heap qu')) ->
  get_damage_instances tk qu = Ok (tk1, q1, l) -> get_damage_instances tk qu' = Ok (tk1', q1', l') ->
  Permutation (hits_before T l) (hits_before T l').
Proof. exact (damage_before tk qu qu' tk1 tk1' q1 q1' l l' T). Qed.
Print Assumptions C72_queue.

(** Two rotations whose timelines begin alike. *)
Theorem C72_timelines b b' r r' T tk tk1 tk1' q1 q1' l l' :
  reachable b -> reachable b' -> get_skill_timing b = Ok r -> get_skill_timing b' = Ok r' ->
  Forall orderly (timeline r) -> Forall orderly (timeline r') -> distinct_places (timeline r) -> distinct_places (timeline r') ->
  Permutation (begun_before T (timeline r)) (begun_before T (timeline r')) ->
  get_damage_instances tk (b_queue r) = Ok (tk1, q1, l) -> get_damage_instances tk (b_queue r') = Ok (tk1', q1', l') ->
  Permutation (hits_before T l) (hits_before T l').
Proof. exact (damage_of_timelines b b' r r' T tk tk1 tk1' q1 q1' l l'). Qed.
Print Assumptions C72_timelines.

(** A rotation and its continuation from [T] on. *)
Theorem C72_continued b b' r r' T new tk tk1 tk1' q1 q1' l l' :
  built b -> distinct_times b -> continued b b' -> b_fight_start b <> None -> b_autos b = false ->
  no_dots b' -> nonneg_delays b' -> nonneg_follow_ups b' -> few_follow_ups b' ->
  get_skill_timing b = Ok r -> get_skill_timing b' = Ok r' ->
  delayed_single (timeline r') -> distinct_places (timeline r') ->
  more_presses r r' new -> (forall p, In p new -> T <= pr_time p) ->
  get_damage_instances tk (b_queue r) = Ok (tk1, q1, l) -> get_damage_instances tk (b_queue r') = Ok (tk1', q1', l') ->
  Permutation (hits_before T l) (hits_before T l').
Proof. exact (damage_of_continued b b' r r' T new tk tk1 tk1' q1 q1' l l'). Qed.
Print Assumptions C72_continued.

(** The timelines of such rotations are orderly. *)
Theorem C72_orderly b r :
  built b -> b_autos b = false -> b_fight_start b <> None -> no_dots b ->
  nonneg_delays b -> nonneg_follow_ups b -> few_follow_ups b -> get_skill_timing b = Ok r -> delayed_single (timeline r) ->
  Forall orderly (timeline r).
Proof. exact (undotted_orderly b r). Qed.
Print Assumptions C72_orderly.

(** *** A case *)

(** Boost, a hit, a slow cast and an instant on two targets; then a hit, a debuff and another
    instant. *)
Definition c72_start : res builder :=
  and_add (and_next (and_next (and_next (fx_builder false false (Some 0) (RWTuple [])) "Boost" 1 None) "Hit" 1 None) "Cast" 1 None)
    (q 2) "Quick" None (Some "Default Target, Add").
Definition c72_more : res builder :=
  and_add (and_next (and_next c72_start "Hit" 1 (Some "Add")) "Weaken" 1 None) (q 7) "Quick" None (Some "Add").
Definition c72_b : builder := fst (ran c72_start).
Definition c72_r : builder := snd (ran c72_start).
Definition c72_b' : builder := fst (ran c72_more).
Definition c72_r' : builder := snd (ran c72_more).
Definition c72_damage : trackers * queue * list instance := cz_damage fx_library c72_r.
Definition c72_damage' : trackers * queue * list instance := cz_damage fx_library c72_r'.

Example C72_case_runs :
  c72_start = Ok c72_b /\ get_skill_timing c72_b = Ok c72_r /\ c72_more = Ok c72_b' /\ get_skill_timing c72_b' = Ok c72_r'
  /\ get_damage_instances (cz_trackers fx_library) (b_queue c72_r) = Ok c72_damage
  /\ get_damage_instances (cz_trackers fx_library) (b_queue c72_r') = Ok c72_damage'.
Proof. split; [|split; [|split; [|split; [|split]]]]; vm_compute; reflexivity. Qed.
Lemma c72_continued b b' : c72_start = Ok b -> c72_more = Ok b' -> continued b b'.
Proof.
  unfold c72_more. intros E E'. rewrite E in E'. destruct (and_next (Ok b) "Hit" 1 (Some "Add")) as [b1|] eqn:E1; [|discriminate E'].
  destruct (and_next (Ok b1) "Weaken" 1 None) as [b2|] eqn:E2; [|discriminate E'].
  eapply and_add_continued; [eapply and_next_continued; [eapply and_next_continued; [apply cont_here | exact E1] | exact E2] | | exact E'].
  apply (later_seconds b2 7); [|vm_compute; reflexivity]. clear E'.
  vm_compute in E. injection E as <-. vm_compute in E1. injection E1 as <-. vm_compute in E2. injection E2 as <-. intros x [<-|[]]. reflexivity.
Qed.
Lemma c72_built : all_built c72_start.
Proof. unfold c72_start. apply and_add_built. do 3 apply and_next_built. apply init_built. Qed.
Example C72_case_built : built c72_b /\ distinct_times c72_b /\ continued c72_b c72_b'.
Proof.
  destruct C72_case_runs as (E & _ & E' & _). split; [exact (c72_built _ E)|]. split; [|exact (c72_continued _ _ E E')].
  unfold distinct_times. replace (map tm_time (b_timed c72_b)) with [2000] by (vm_compute; reflexivity). repeat constructor. intros [].
Qed.
Example C72_case_hypotheses :
  b_fight_start c72_b <> None /\ b_autos c72_b = false
  /\ no_dots c72_b' /\ nonneg_delays c72_b' /\ nonneg_follow_ups c72_b' /\ few_follow_ups c72_b'
  /\ delayed_single (timeline c72_r') /\ distinct_places (timeline c72_r')
  /\ exists new, more_presses c72_r c72_r' new /\ forall p, In p new -> 5530 <= pr_time p.
Proof.
  assert (E : skills_of c72_b' = [fx_buff; fx_hit; fx_cast; fx_hit; fx_debuff; fx_ogcd; fx_ogcd]) by (vm_compute; reflexivity).
  assert (F : forall s m l, In s (skills_of c72_b') -> get_follow_up_skills s m = Ok l -> l = []).
  { intros s m l H G. rewrite E in H. repeat (destruct H as [<-|H]; [vm_compute in G; injection G as <-; reflexivity|]); destruct H. }
  split; [vm_compute; discriminate|]. split; [vm_compute; reflexivity|].
  split; [intros s m fus fu H G I; rewrite (F s m fus H G) in I; destruct I|].
  split; [intros s m spec H G; rewrite E in H;
      repeat (destruct H as [<-|H]; [vm_compute in G; injection G as <-; vm_compute; discriminate|]); destruct H|].
  split; [intros s m fus fu H G I; rewrite (F s m fus H G) in I; destruct I|].
  split; [intros s m fus H G; rewrite (F s m fus H G); apply Nat.ltb_lt; vm_compute; reflexivity|].
  split; [apply singles_sound; vm_compute; reflexivity|]. split; [apply apart_sound; vm_compute; reflexivity|].
  exists [mkPress 5530 "Hit" "" ""; mkPress 6180 "Weaken" "" ""; mkPress 7000 "Quick" "" ""]. split; [vm_compute; reflexivity|].
  intros p [<-|[<-|[<-|[]]]]; vm_compute; discriminate.
Qed.
Example C72_case :
  map (fun i => fst (outline i)) (snd c72_damage)
  = [(1150, "Hit", "Default Target"); (2000, "Quick", "Default Target"); (2135, "Quick", "Add"); (4650, "Cast", "Default Target")]
  /\ map (fun i => fst (outline i)) (snd c72_damage')
  = [(1150, "Hit", "Default Target"); (2000, "Quick", "Default Target"); (2135, "Quick", "Add"); (4650, "Cast", "Default Target");
     (6030, "Hit", "Add"); (7000, "Quick", "Add")]
  /\ hits_before 5530 (snd c72_damage') = snd c72_damage.
Proof. split; [|split]; vm_compute; reflexivity. Qed.

(** *** What can change *)

(** Applying a DoT again takes ticks off the earlier application; each tick uses up a charge of
    a buff when its application snapshots; so hits in between can gain the buff. *)
Theorem C72_dots_refuted :
  exists b b' r r' T new tk tk1 tk1' q1 q1' l l' i,
    built b /\ distinct_times b /\ continued b b' /\ b_fight_start b <> None /\ b_autos b = false
    /\ get_skill_timing b = Ok r /\ get_skill_timing b' = Ok r'
    /\ delayed_single (timeline r') /\ distinct_places (timeline r')
    /\ more_presses r r' new /\ (forall p, In p new -> T <= pr_time p)
    /\ get_damage_instances tk (b_queue r) = Ok (tk1, q1, l) /\ get_damage_instances tk (b_queue r') = Ok (tk1', q1', l')
    /\ In i (hits_before T l) /\ ~ In (outline i) (map outline (hits_before T l')).
Proof. exact dots_change_damage. Qed.
Print Assumptions C72_dots_refuted.
