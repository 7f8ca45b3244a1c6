(** * Rotations that go on (property C71) *)

From Coq Require Import ZArith QArith List String Bool Lia Permutation.
From Verif Require Import Base Float Strings Types Lookup Stats Library StatusEffect Channeling Events Rotation Fixtures
  SpecPlay SpecTimeline SpecRun SpecLater RunCounter LaterFacts LaterCase.
Import ListNotations.
Open Scope string_scope.
Open Scope Z_scope.

(** ** C71: the past does not depend on the future *)

(** A rotation that goes on starts with the same presses: same times, modifiers and
    effects in force. *)
Theorem C71_played b b' r r' :
  reachable b -> distinct_times b -> continued b b' -> get_skill_timing b = Ok r -> get_skill_timing b' = Ok r' ->
  exists slog tlog nsq nt d d',
    rotation_played b slog tlog /\ rotation_played b' (slog ++ nsq) (tlog ++ nt)
    /\ shows_presses b r (slog ++ tlog) d
    /\ shows_presses b' r' ((slog ++ nsq) ++ (tlog ++ nt)) d'
    /\ (b_fight_start b <> None -> d = 0 /\ d' = 0).
Proof. exact (presses_go_on b b' r r'). Qed.
Print Assumptions C71_played.

(** Its report of presses contains the earlier one. *)
Theorem C71_presses b b' r r' :
  reachable b -> distinct_times b -> continued b b' -> b_fight_start b <> None ->
  get_skill_timing b = Ok r -> get_skill_timing b' = Ok r' ->
  exists new, more_presses r r' new.
Proof. exact (presses_stay b b' r r'). Qed.
Print Assumptions C71_presses.

(** With [add_next] alone, it begins with the earlier one. *)
Theorem C71_sequence b b' r r' :
  reachable b -> continued b b' -> b_timed b' = [] -> nonneg_locks b' -> b_fight_start b <> None ->
  get_skill_timing b = Ok r -> get_skill_timing b' = Ok r' ->
  exists new, get_button_press_timing r' = (get_button_press_timing r ++ new)%list
    /\ List.length new = (List.length (b_sequence b') - List.length (b_sequence b))%nat
    /\ forall p q, In p (get_button_press_timing r) -> In q new -> pr_time p <= pr_time q.
Proof. exact (sequence_stays b b' r r'). Qed.
Print Assumptions C71_sequence.

(** No event of the earlier presses is lost or changed, ticks and autos aside; the further
    events are those of the further presses. *)
Theorem C71_timeline b b' r r' :
  built b -> distinct_times b -> continued b b' -> b_fight_start b <> None ->
  get_skill_timing b = Ok r -> get_skill_timing b' = Ok r' ->
  exists slog tlog nsq nt old new bg bg',
    rotation_played b slog tlog /\ rotation_played b' (slog ++ nsq) (tlog ++ nt)
    /\ downtimed (windows_of b) (map entry (flat_map press_entries (slog ++ tlog))) old
    /\ downtimed (windows_of b') (map entry (flat_map press_entries (nsq ++ nt))) new
    /\ background (windows_of b) bg /\ background (windows_of b') bg'
    /\ Permutation (timeline r) (old ++ bg)
    /\ Permutation (timeline r') (old ++ new ++ bg').
Proof. exact (timeline_go_on b b' r r'). Qed.
Print Assumptions C71_timeline.

(** Before the first further press, the timelines agree completely, ticks included. *)
Theorem C71_before b b' r r' T new :
  built b -> distinct_times b -> continued b b' -> b_fight_start b <> None -> b_autos b = false -> b_ignore_trailing b = false ->
  nonneg_delays b' -> nonneg_follow_ups b' -> tells_apart b' -> exact_ticks b' ->
  get_skill_timing b = Ok r -> get_skill_timing b' = Ok r' ->
  more_presses r r' new -> (forall p, In p new -> T <= pr_time p) ->
  Permutation (before T (timeline r)) (before T (timeline r')).
Proof. exact (timeline_before b b' r r' T new). Qed.
Print Assumptions C71_before.

(** *** A case *)

(** Boost, a hit, a DoT and a timed hit, with downtime from 6.4 s to 6.6 s; then a hit, another
    DoT and a later timed hit on another target. *)
Definition c71_start : res builder :=
  and_add (and_next (and_next (and_next (fx_builder false false (Some 0) (RWTuple [(dec 64 10, dec 66 10, None)])) "Boost" 1 None) "Hit" 1 None) "Burn" 1 None)
    (q 2) "Quick" None None.
Definition c71_more : res builder :=
  and_add (and_next (and_next c71_start "Hit" 1 None) "Burn" 1 (Some "Add, Default Target")) (q 7) "Quick" None (Some "Add").
Definition c71_b : builder := fst (ran c71_start).
Definition c71_r : builder := snd (ran c71_start).
Definition c71_b' : builder := fst (ran c71_more).
Definition c71_r' : builder := snd (ran c71_more).

Example C71_case_runs :
  c71_start = Ok c71_b /\ get_skill_timing c71_b = Ok c71_r /\ c71_more = Ok c71_b' /\ get_skill_timing c71_b' = Ok c71_r'.
Proof. split; [|split; [|split]]; vm_compute; reflexivity. Qed.
Lemma c71_continued b b' : c71_start = Ok b -> c71_more = Ok b' -> continued b b'.
Proof.
  unfold c71_more. intros E E'. rewrite E in E'. destruct (and_next (Ok b) "Hit" 1 None) as [b1|] eqn:E1; [|discriminate E'].
  destruct (and_next (Ok b1) "Burn" 1 (Some "Add, Default Target")) as [b2|] eqn:E2; [|discriminate E'].
  eapply and_add_continued; [eapply and_next_continued; [eapply and_next_continued; [apply cont_here | exact E1] | exact E2] | | exact E'].
  apply (later_seconds b2 7); [|vm_compute; reflexivity]. clear E'.
  vm_compute in E. injection E as <-. vm_compute in E1. injection E1 as <-. vm_compute in E2. injection E2 as <-. intros x [<-|[]]. reflexivity.
Qed.
Lemma c71_built : all_built c71_start.
Proof. unfold c71_start. apply and_add_built. do 3 apply and_next_built. apply init_built. Qed.
Example C71_case_built : built c71_b /\ distinct_times c71_b /\ continued c71_b c71_b'.
Proof.
  destruct C71_case_runs as (E & _ & E' & _). split; [exact (c71_built _ E)|]. split; [|exact (c71_continued _ _ E E')].
  unfold distinct_times. replace (map tm_time (b_timed c71_b)) with [2000] by (vm_compute; reflexivity). repeat constructor. intros [].
Qed.
Example C71_case_hypotheses :
  b_fight_start c71_b <> None /\ b_autos c71_b = false /\ b_ignore_trailing c71_b = false
  /\ nonneg_delays c71_b' /\ nonneg_follow_ups c71_b' /\ tells_apart c71_b' /\ exact_ticks c71_b'
  /\ exists new, more_presses c71_r c71_r' new /\ forall p, In p new -> 5530 <= pr_time p.
Proof.
  assert (E : skills_of c71_b' = [fx_buff; fx_hit; fx_burn; fx_hit; fx_burn; fx_ogcd; fx_ogcd]) by (vm_compute; reflexivity).
  assert (F : forall s m l fu, In s (skills_of c71_b') -> get_follow_up_skills s m = Ok l -> In fu l -> fu = fx_burn_fu).
  { intros s m l fu H G I. rewrite E in H.
    repeat (destruct H as [<-|H]; [vm_compute in G; injection G as <-; first [solve [destruct I] | destruct I as [<-|[]]; reflexivity]|]); destruct H. }
  split; [vm_compute; discriminate|]. split; [vm_compute; reflexivity|]. split; [vm_compute; reflexivity|].
  refine (conj _ (conj _ (conj _ (conj _ _)))).
  - intros s m spec H G; rewrite E in H;
      repeat (destruct H as [<-|H]; [vm_compute in G; injection G as <-; vm_compute; discriminate|]); destruct H.
  - intros s m fus fu H G I. rewrite (F s m fus fu H G I). vm_compute. discriminate.
  - intros s1 s2 m1 m2 l1 l2 f1 f2 H1 H2 G1 G2 I1 I2 _ _. rewrite (F _ _ _ _ H1 G1 I1), (F _ _ _ _ H2 G2 I2).
    split; [reflexivity | intros _; vm_compute; reflexivity].
  - left. vm_compute. reflexivity.
  - exists [mkPress 5530 "Hit" "" ""; mkPress 7000 "Quick" "" ""; mkPress 7970 "Burn" "" ""]. split; [vm_compute; reflexivity|].
    intros p [<-|[<-|[<-|[]]]]; vm_compute; discriminate.
Qed.
(** The ticks at 9490, 12490 and 15490 give way to those of the second application. *)
Example C71_case :
  names (get_button_press_timing c71_r) = [(0, "Boost"); (650, "Hit"); (2000, "Quick"); (3090, "Burn")]
  /\ names (get_button_press_timing c71_r')
     = [(0, "Boost"); (650, "Hit"); (2000, "Quick"); (3090, "Burn"); (5530, "Hit"); (7000, "Quick"); (7970, "Burn")]
  /\ event_times (timeline c71_r)
     = [(100, "Boost"); (1150, "Hit"); (2000, "Quick"); (3490, "Burn"); (3490, "Burn (tick)"); (9490, "Burn (tick)");
        (12490, "Burn (tick)"); (15490, "Burn (tick)")]
  /\ event_times (before 5530 (timeline c71_r))
     = [(100, "Boost"); (1150, "Hit"); (2000, "Quick"); (3490, "Burn"); (3490, "Burn (tick)")]
  /\ before 5530 (timeline c71_r') = before 5530 (timeline c71_r)
  /\ List.length (timeline c71_r') = 18%nat.
Proof. split; [|split; [|split; [|split; [|split]]]]; vm_compute; reflexivity. Qed.

(** *** What can change *)

(** Without a start time, a further press that does damage before the others do moves all
    of them. *)
Theorem C71_no_start_refuted :
  exists b b' r r' p, built b /\ distinct_times b /\ continued b b' /\ b_autos b = false /\ b_ignore_trailing b = false
    /\ get_skill_timing b = Ok r /\ get_skill_timing b' = Ok r'
    /\ In p (get_button_press_timing r) /\ ~ In p (get_button_press_timing r').
Proof. exact start_matters. Qed.
Print Assumptions C71_no_start_refuted.

(** When trailing ticks are dropped, ticks reappear before the further presses. *)
Theorem C71_trailing_refuted :
  exists b b' r r' new T e, built b /\ distinct_times b /\ continued b b' /\ b_fight_start b <> None /\ b_autos b = false
    /\ get_skill_timing b = Ok r /\ get_skill_timing b' = Ok r'
    /\ more_presses r r' new /\ (forall p, In p new -> T <= pr_time p)
    /\ In e (before T (timeline r')) /\ ~ In e (before T (timeline r)).
Proof. exact trailing_changes. Qed.
Print Assumptions C71_trailing_refuted.
