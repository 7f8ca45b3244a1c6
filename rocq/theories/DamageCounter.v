(** * Rotations used in examples and refutations about the damage builder *)

From Coq Require Import ZArith QArith List String Bool Lia Permutation Sorted.
From Verif Require Import Base Float Types Lookup StatusEffect Stats Library Events Rotation DamageBuild SpecQueue SpecPlay SpecTimeline
  SpecRun JobResource Combo RunProps RunCounter SpecDamage Fixtures.
Import ListNotations.
Open Scope string_scope.
Open Scope Z_scope.

(** Skills: a buff of 20 s started when the skill applies; its follow-up does damage at
    the same moment, with buffs of that moment. *)
Definition dx_echo : skill := fx_skill "Echo" (COne (fx_damage 50)) (fx_timing 0 0 0) false [].
Definition dx_lead : skill :=
  mkSkill "Lead" (COne (fx_damage 100)) (COne (fx_timing 0 650 500)) (COne (fx_status 20000 (dec 110 100))) CNone CNone
    (TTuple []) (TTuple []) [] false [] true (TTuple [mkFollowUp dx_echo 0 false true None false]) "".
(** A follow-up with a buff of its own. *)
Definition dx_wave_hit : skill :=
  mkSkill "Wave (hit)" (COne (fx_damage 50)) (COne (fx_timing 0 0 0)) (COne (fx_status 20000 (dec 110 100))) CNone CNone
    (TTuple []) (TTuple []) [] false [] true (TTuple []) "".
Definition dx_wave : skill := fx_skill "Wave" CNone (fx_timing 0 650 500) false [mkFollowUp dx_wave_hit 0 false true None false].
(** A buff of 500 ms, applied after 100 ms. *)
Definition dx_flash : skill := fx_buff_skill "Flash" (COne (fx_status 500 (dec 110 100))) CNone.
(** Damage over time only. *)
Definition dx_bio : skill := fx_skill "Bio" CNone (fx_timing 0 650 400) true [fx_burn_fu].

Definition dx_library_res : res library :=
  foldM add_skill [fx_hit; fx_ogcd; fx_burn; fx_buff; fx_debuff; dx_lead; dx_wave; dx_flash; dx_bio]
    (set_current_job_class (lib_init "test" 100) "test_job").
Definition dx_library : library :=
  Eval vm_compute in match dx_library_res with Ok l => l | Err _ => lib_init "test" 100 end.
Definition dx_builder (server : option Q) : res builder :=
  rb_init fx_stats dx_library server false false (Some 0) (RWTuple []) DEFAULT_TARGET.
Definition dx_trackers : trackers :=
  Eval vm_compute in match db_init fx_stats dx_library with Ok tk => tk | Err _ => mkTrackers (se_init []) (jr_init []) (combo_init []) end.
Example dx_trackers_ok : db_init fx_stats dx_library = Ok dx_trackers.
Proof. vm_compute. reflexivity. Qed.

(** The damage builder on the timeline of [r]. *)
Definition deal (tk : trackers) (r : res builder) : trackers * queue * list instance :=
  match get_damage_instances tk (b_queue (snd (ran r))) with Ok x => x | Err _ => (tk, q_init, []) end.
(** time, skill, target, id, names of buffs and debuffs *)
Definition seen (i : instance) :=
  (di_time i, sk_name (di_skill i), di_target i, di_id i, ef_names (fst (di_effects i)), ef_names (snd (di_effects i))).
(** the first instance of a skill on a target *)
Definition no_instance : instance := mkInst 0 dx_echo default_modifier (no_effects, no_effects) 0 "".
Definition hit_of (l : list instance) (name target : string) : instance :=
  match find (fun i => String.eqb (sk_name (di_skill i)) name && String.eqb (di_target i) target) l with Some i => i | None => no_instance end.
Lemma hit_of_in l name target :
  existsb (fun i => String.eqb (sk_name (di_skill i)) name && String.eqb (di_target i) target) l = true -> In (hit_of l name target) l.
Proof.
  intros H. unfold hit_of. destruct (find _ _) as [e|] eqn:E.
  - now apply find_some in E as (I & T).
  - apply existsb_exists in H as (e & I & T). apply (find_none _ _ E) in I. congruence.
Qed.
Definition no_event : event := mkEvent 0 0 None dx_echo default_modifier (SFlag true, SFlag true) [] 0 false false false.
Definition event_of (b : builder) (name : string) : event :=
  match find (fun e => String.eqb (sk_name (ev_skill e)) name) (q_heap (b_queue b)) with Some e => e | None => no_event end.
Lemma event_of_in b name :
  existsb (fun e => String.eqb (sk_name (ev_skill e)) name) (q_heap (b_queue b)) = true -> In (event_of b name) (q_heap (b_queue b)).
Proof.
  intros H. unfold event_of. destruct (find _ _) as [e|] eqn:E.
  - now apply find_some in E as (I & T).
  - apply existsb_exists in H as (e & I & T). apply (find_none _ _ E) in I. congruence.
Qed.

Definition dx_lead_run : res builder := and_add (dx_builder None) 0 "Lead" None None.
Definition dx_wave_run : res builder := and_add (dx_builder None) 0 "Wave" None (Some "A, B").
Definition dx_flash_run : res builder :=
  and_add (and_add (and_add (dx_builder None) 0 "Flash" None None) 0 "Hit" None (Some "A, B")) (dec 550 1000) "Quick" None (Some "A").
Definition dx_bio_run : res builder :=
  and_add (and_add (dx_builder (Some 0%Q)) 0 "Weaken" None (Some "A")) (dec 1 1) "Bio" None (Some "A, B").
Definition dx_hit_run : res builder := and_add (dx_builder None) 1 "Hit" None None.

Lemma ran_ok r b b' : r = Ok b -> get_skill_timing b = Ok b' -> ran r = (b, b').
Proof. intros -> H. cbn. now rewrite H. Qed.
Ltac runs := split; vm_compute; reflexivity.
Ltac is_built H := match type of H with ?r = Ok ?b => cut (all_built r); [let K := fresh in intro K; exact (K _ H) | repeat apply and_add_built; apply init_built] end.
Lemma dx_lead_ok : dx_lead_run = Ok (fst (ran dx_lead_run)) /\ get_skill_timing (fst (ran dx_lead_run)) = Ok (snd (ran dx_lead_run)).
Proof. runs. Qed.
Lemma dx_wave_ok : dx_wave_run = Ok (fst (ran dx_wave_run)) /\ get_skill_timing (fst (ran dx_wave_run)) = Ok (snd (ran dx_wave_run)).
Proof. runs. Qed.
Lemma dx_flash_ok : dx_flash_run = Ok (fst (ran dx_flash_run)) /\ get_skill_timing (fst (ran dx_flash_run)) = Ok (snd (ran dx_flash_run)).
Proof. runs. Qed.
Lemma dx_bio_ok : dx_bio_run = Ok (fst (ran dx_bio_run)) /\ get_skill_timing (fst (ran dx_bio_run)) = Ok (snd (ran dx_bio_run)).
Proof. runs. Qed.
Lemma dx_hit_ok : dx_hit_run = Ok (fst (ran dx_hit_run)) /\ get_skill_timing (fst (ran dx_hit_run)) = Ok (snd (ran dx_hit_run)).
Proof. runs. Qed.
Lemma dx_lead_built : built (fst (ran dx_lead_run)). Proof. pose proof (proj1 dx_lead_ok) as H. is_built H. Qed.
Lemma dx_wave_built : built (fst (ran dx_wave_run)). Proof. pose proof (proj1 dx_wave_ok) as H. is_built H. Qed.
Lemma dx_flash_built : built (fst (ran dx_flash_run)). Proof. pose proof (proj1 dx_flash_ok) as H. is_built H. Qed.
Lemma dx_bio_built : built (fst (ran dx_bio_run)). Proof. pose proof (proj1 dx_bio_ok) as H. is_built H. Qed.
Lemma dx_hit_built : built (fst (ran dx_hit_run)). Proof. pose proof (proj1 dx_hit_ok) as H. is_built H. Qed.

(** Everything a rotation, simulated with a new damage builder, yields. *)
Definition simulated (b b' : builder) (tk tk' : trackers) (qu' : queue) (l : list instance) : Prop :=
  built b /\ get_skill_timing b = Ok b' /\ db_init (b_stats b) (b_library b) = Ok tk
  /\ get_damage_instances tk (b_queue b') = Ok (tk', qu', l).
Lemma simulated_run r : r = Ok (fst (ran r)) -> get_skill_timing (fst (ran r)) = Ok (snd (ran r)) -> built (fst (ran r)) ->
  db_init (b_stats (fst (ran r))) (b_library (fst (ran r))) = Ok dx_trackers ->
  get_damage_instances dx_trackers (b_queue (snd (ran r))) = Ok (deal dx_trackers r) ->
  simulated (fst (ran r)) (snd (ran r)) dx_trackers (fst (fst (deal dx_trackers r))) (snd (fst (deal dx_trackers r))) (snd (deal dx_trackers r)).
Proof.
  intros E H B D G. split; [exact B|]. split; [exact H|]. split; [exact D|]. rewrite G. destruct (deal dx_trackers r) as [[x y] z]. reflexivity.
Qed.

Lemma dx_lead_sim : simulated (fst (ran dx_lead_run)) (snd (ran dx_lead_run)) dx_trackers (fst (fst (deal dx_trackers dx_lead_run)))
  (snd (fst (deal dx_trackers dx_lead_run))) (snd (deal dx_trackers dx_lead_run)).
Proof. apply simulated_run; [apply dx_lead_ok | apply dx_lead_ok | exact dx_lead_built | vm_compute; reflexivity | vm_compute; reflexivity]. Qed.
Lemma dx_wave_sim : simulated (fst (ran dx_wave_run)) (snd (ran dx_wave_run)) dx_trackers (fst (fst (deal dx_trackers dx_wave_run)))
  (snd (fst (deal dx_trackers dx_wave_run))) (snd (deal dx_trackers dx_wave_run)).
Proof. apply simulated_run; [apply dx_wave_ok | apply dx_wave_ok | exact dx_wave_built | vm_compute; reflexivity | vm_compute; reflexivity]. Qed.
Lemma dx_flash_sim : simulated (fst (ran dx_flash_run)) (snd (ran dx_flash_run)) dx_trackers (fst (fst (deal dx_trackers dx_flash_run)))
  (snd (fst (deal dx_trackers dx_flash_run))) (snd (deal dx_trackers dx_flash_run)).
Proof. apply simulated_run; [apply dx_flash_ok | apply dx_flash_ok | exact dx_flash_built | vm_compute; reflexivity | vm_compute; reflexivity]. Qed.

(** A follow-up that does not snapshot buffs, applied together with its parent, lacks
    the parent's buff. *)
Lemma parent_first_refuted :
  ~ (forall b b' tk tk' qu' l parent e d t x,
       simulated b b' tk tk' qu' l -> In parent (q_heap (b_queue b')) -> In e (q_heap (b_queue b')) ->
       key_le parent e -> ~ key_le e parent -> effect_time parent t -> effect_time e t -> fst (ev_snap e) = SFlag false ->
       plain_buff (ev_skill parent) d -> 0 < d -> sk_denylist (ev_skill e) = [] ->
       In x l -> di_id x = ev_id e -> has_buff_of x (ev_skill parent)).
Proof.
  intros H. pose (b' := snd (ran dx_lead_run)). pose (l := snd (deal dx_trackers dx_lead_run)).
  specialize (H _ _ _ _ _ _ (event_of b' "Lead") (event_of b' "Echo") 20000 500 (hit_of l "Echo" DEFAULT_TARGET) dx_lead_sim).
  assert (C : has_buff_of (hit_of l "Echo" DEFAULT_TARGET) (ev_skill (event_of b' "Lead"))).
  { apply H; clear H.
    - apply event_of_in. vm_compute. reflexivity.
    - apply event_of_in. vm_compute. reflexivity.
    - left. vm_compute. reflexivity.
    - intros [K|(K & _)]; vm_compute in K; discriminate K.
    - vm_compute. tauto.
    - vm_compute. tauto.
    - vm_compute. reflexivity.
    - eexists. vm_compute. repeat split.
    - reflexivity.
    - vm_compute. reflexivity.
    - apply hit_of_in. vm_compute. reflexivity.
    - vm_compute. reflexivity. }
  vm_compute in C. exact C.
Qed.

(** On its second target a skill benefits from the buff it grants. *)
Lemma never_own_buff_refuted :
  ~ (forall b b' tk tk' qu' l e x,
       simulated b b' tk tk' qu' l -> In e (q_heap (b_queue b')) ->
       (forall e', In e' (q_heap (b_queue b')) -> sk_name (ev_skill e') = sk_name (ev_skill e) -> e' = e) ->
       In x l -> di_id x = ev_id e -> ~ has_buff_of x (ev_skill e)).
Proof.
  intros H. pose (b' := snd (ran dx_wave_run)). pose (l := snd (deal dx_trackers dx_wave_run)).
  apply (H _ _ _ _ _ _ (event_of b' "Wave (hit)") (hit_of l "Wave (hit)" "B") dx_wave_sim); clear H.
  - apply event_of_in. vm_compute. reflexivity.
  - intros e' He. unfold b'. revert He. vm_compute. intros [<-|[<-|[]]]; intros K; [discriminate K | reflexivity].
  - apply hit_of_in. vm_compute. reflexivity.
  - vm_compute. reflexivity.
  - vm_compute. tauto.
Qed.

(** A hit may lack a buff in force from before until after it. *)
Lemma in_force_refuted :
  ~ (forall b b' tk tk' qu' l e1 e2 d t1 t2 x,
       simulated b b' tk tk' qu' l -> In e1 (q_heap (b_queue b')) -> In e2 (q_heap (b_queue b')) ->
       effect_time e1 t1 -> plain_buff (ev_skill e1) d -> List.length (ev_targets e1) = 1%nat ->
       ev_primary e2 = t2 -> effect_time e2 t2 -> List.length (ev_targets e2) = 1%nat -> sk_denylist (ev_skill e2) = [] ->
       t1 < t2 < t1 + d ->
       In x l -> di_id x = ev_id e2 -> has_buff_of x (ev_skill e1)).
Proof.
  intros H. pose (b' := snd (ran dx_flash_run)). pose (l := snd (deal dx_trackers dx_flash_run)).
  specialize (H _ _ _ _ _ _ (event_of b' "Flash") (event_of b' "Quick") 500 100 550 (hit_of l "Quick" "A") dx_flash_sim).
  assert (C : has_buff_of (hit_of l "Quick" "A") (ev_skill (event_of b' "Flash"))).
  { apply H; clear H.
    - apply event_of_in. vm_compute. reflexivity.
    - apply event_of_in. vm_compute. reflexivity.
    - vm_compute. tauto.
    - eexists. vm_compute. repeat split.
    - vm_compute. reflexivity.
    - vm_compute. reflexivity.
    - vm_compute. tauto.
    - vm_compute. reflexivity.
    - vm_compute. reflexivity.
    - clear. lia.
    - apply hit_of_in. vm_compute. reflexivity.
    - vm_compute. reflexivity. }
  vm_compute in C. exact C.
Qed.

(** Simultaneous hits of a skill on targets with different debuffs. *)
Lemma never_raises_refuted :
  ~ (forall b b' tk, built b -> get_skill_timing b = Ok b' -> db_init (b_stats b) (b_library b) = Ok tk ->
       exists r, get_damage_instances tk (b_queue b') = Ok r).
Proof.
  intros H. specialize (H _ _ dx_trackers dx_bio_built (proj2 dx_bio_ok)).
  assert (E : get_damage_instances dx_trackers (b_queue (snd (ran dx_bio_run))) = Err TypeError) by (vm_compute; reflexivity).
  rewrite E in H. destruct H as (r & H); [vm_compute; reflexivity | discriminate H].
Qed.

(** The buff of the first rotation in the second. *)
Lemma no_leak_refuted :
  ~ (forall b1 b1' tk tk1 q1 l1 b2 b2',
       simulated b1 b1' tk tk1 q1 l1 -> built b2 -> get_skill_timing b2 = Ok b2' ->
       b_stats b2 = b_stats b1 -> b_library b2 = b_library b1 ->
       outcome (get_damage_instances tk1 (b_queue b2')) = outcome (get_damage_instances tk (b_queue b2'))).
Proof.
  intros H. specialize (H _ _ _ _ _ _ _ _ dx_lead_sim dx_hit_built (proj2 dx_hit_ok)).
  assert (E : match outcome (get_damage_instances (fst (fst (deal dx_trackers dx_lead_run))) (b_queue (snd (ran dx_hit_run)))) with
              | Ok [x] => has_buff_of x dx_lead | _ => False end) by (vm_compute; tauto).
  rewrite H in E; [|vm_compute; reflexivity | vm_compute; reflexivity]. vm_compute in E. exact E.
Qed.
