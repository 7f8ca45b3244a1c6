(** * C31-C33, C47, C48, C51: damage instances *)

From Coq Require Import ZArith QArith List String Bool Permutation Sorted.
From Verif Require Import Base Float Heap Strings Types Lookup StatusEffect JobResource Combo Stats Library Events Rotation DamageBuild Damage
  SpecQueue SpecPlay SpecTimeline SpecDots SpecRun RunProps TimelineProps RunCounter DamageRun DamageStory DamageTrace DamageLeak DamageCounter
  SpecDamage DamageProps Fixtures.
Import ListNotations.
Open Scope string_scope.
Open Scope Z_scope.

(** C31 *)
Theorem C31_terminates b b' tk :
  reachable b -> get_skill_timing b = Ok b' -> get_damage_instances tk (b_queue b') <> Err OutOfFuel.
Proof. exact (timeline_damage_terminates b b' tk). Qed.
Print Assumptions C31_terminates.

Theorem C31_one_hit_per_target b b' tk tk' qu' l :
  reachable b -> get_skill_timing b = Ok b' -> get_damage_instances tk (b_queue b') = Ok (tk', qu', l) ->
  q_is_empty qu' = true
  /\ StronglySorted (fun i j => di_time i <= di_time j) l
  /\ exists hits, Permutation l (List.concat hits)
       /\ Forall2 (fun e is => exists t, effect_time e t
                     /\ lands e (fun k x m bu de => extends (ev_modifier e) m) t 0 (ev_targets e) is)
            (q_heap (b_queue b')) hits.
Proof. exact (one_hit_per_target b b' tk tk' qu' l). Qed.
Print Assumptions C31_one_hit_per_target.

(** C32: the final modifier and the effects of every hit. *)
Theorem C32_hits_described b b' tk tk' qu' l :
  reachable b -> get_skill_timing b = Ok b' -> get_damage_instances tk (b_queue b') = Ok (tk', qu', l) ->
  exists h hits, damage_run tk (q_heap (b_queue b')) tk' l h hits /\ NoDup (map label h)
    /\ Permutation l (List.concat hits)
    /\ Forall2 (fun e is => exists t, effect_time e t /\ lands e (described tk h e) t 0 (ev_targets e) is)
         (q_heap (b_queue b')) hits.
Proof. exact (hits_described b b' tk tk' qu' l). Qed.
Print Assumptions C32_hits_described.

(** The trackers are asked in the order of the queue, which with several targets is
    not the order of time: a buff in force may be missing. *)
Theorem C32_in_force_refuted :
  ~ (forall b b' tk tk' qu' l e1 e2 d t1 t2 x,
       simulated b b' tk tk' qu' l -> In e1 (q_heap (b_queue b')) -> In e2 (q_heap (b_queue b')) ->
       effect_time e1 t1 -> plain_buff (ev_skill e1) d -> List.length (ev_targets e1) = 1%nat ->
       ev_primary e2 = t2 -> effect_time e2 t2 -> List.length (ev_targets e2) = 1%nat -> sk_denylist (ev_skill e2) = [] ->
       t1 < t2 < t1 + d ->
       In x l -> di_id x = ev_id e2 -> has_buff_of x (ev_skill e1)).
Proof. exact in_force_refuted. Qed.
Print Assumptions C32_in_force_refuted.

(** "That same hit" cannot be read as "any hit of the same press". *)
Theorem C32_other_target_refuted :
  ~ (forall b b' tk tk' qu' l e x,
       simulated b b' tk tk' qu' l -> In e (q_heap (b_queue b')) ->
       (forall e', In e' (q_heap (b_queue b')) -> sk_name (ev_skill e') = sk_name (ev_skill e) -> e' = e) ->
       In x l -> di_id x = ev_id e -> ~ has_buff_of x (ev_skill e)).
Proof. exact never_own_buff_refuted. Qed.
Print Assumptions C32_other_target_refuted.

(** C33: at their first time (usually the snapshot), a press's events are handled in
    order: first the skill, then its follow-ups as declared. *)
Theorem C33_first_times_in_order_partial b b' tk tk' qu' l :
  reachable b -> get_skill_timing b = Ok b' -> get_damage_instances tk (b_queue b') = Ok (tk', qu', l) ->
  exists slog tlog extra d, rotation_played b slog tlog /\ shows_timeline b b' (flat_map press_entries (slog ++ tlog) ++ extra) d
    /\ exists h hits, damage_run tk (q_heap (b_queue b')) tk' l h hits
      /\ forall p pre c1 mid c2 post e1 e2,
           In p (slog ++ tlog)%list -> press_entries p = (pre ++ c1 :: mid ++ c2 :: post)%list -> ad_primary c1 <= ad_primary c2 ->
           In e1 (q_heap (b_queue b')) -> In e2 (q_heap (b_queue b')) -> comes_from d c1 e1 -> comes_from d c2 e2 ->
           exists pre mid post, map label h = (pre ++ (ev_id e1, None) :: mid ++ (ev_id e2, None) :: post)%list.
Proof. exact (follow_ups_in_order b b' tk tk' qu' l). Qed.
Print Assumptions C33_first_times_in_order_partial.

(** At simultaneous applications the order is reversed. *)
Theorem C33_applications_refuted :
  ~ (forall b b' tk tk' qu' l parent e d t x,
       simulated b b' tk tk' qu' l -> In parent (q_heap (b_queue b')) -> In e (q_heap (b_queue b')) ->
       key_le parent e -> ~ key_le e parent -> effect_time parent t -> effect_time e t -> fst (ev_snap e) = SFlag false ->
       plain_buff (ev_skill parent) d -> 0 < d -> sk_denylist (ev_skill e) = [] ->
       In x l -> di_id x = ev_id e -> has_buff_of x (ev_skill parent)).
Proof. exact parent_first_refuted. Qed.
Print Assumptions C33_applications_refuted.

(** C47 *)
Theorem C47_source b b' tk tk' qu' l x :
  reachable b -> get_skill_timing b = Ok b' -> get_damage_instances tk (b_queue b') = Ok (tk', qu', l) -> In x l ->
  exists e, In e (q_heap (b_queue b')) /\ di_id x = ev_id e /\ di_skill x = ev_skill e /\ In (di_target x) (ev_targets e).
Proof. exact (instance_source b b' tk tk' qu' l x). Qed.
Print Assumptions C47_source.

Theorem C47_traced b b' tk tk' qu' l st sim b2 b2' :
  reachable b -> get_skill_timing b = Ok b' -> get_damage_instances tk (b_queue b') = Ok (tk', qu', l) ->
  ds_init st l = Ok sim ->
  get_skill_timing b2 = Ok b2' -> b_queue b2' = b_queue b' ->
  exists r, add_damage_snapshots sim b2 = Ok r /\ map fst r = l
    /\ Forall (fun xt => exists e, In e (q_heap (b_queue b')) /\ di_id (fst xt) = ev_id e /\ di_skill (fst xt) = ev_skill e
                 /\ snd xt = ev_primary e) r.
Proof. exact (traces_back b b' tk tk' qu' l st sim b2 b2'). Qed.
Print Assumptions C47_traced.

(** In particular with the builder itself, run before. *)
Theorem C47_traced_same_builder b b' tk tk' qu' l st sim :
  built b -> b_autos b = false -> get_skill_timing b = Ok b' -> get_damage_instances tk (b_queue b') = Ok (tk', qu', l) ->
  ds_init st l = Ok sim ->
  exists slog tlog, rotation_played b slog tlog
    /\ (distinguishable (flat_map press_dots (slog ++ tlog)) ->
        small_times (b_snap_dots b) (flat_map press_dots (slog ++ tlog)) ->
        exists r, add_damage_snapshots sim b' = Ok r /\ map fst r = l
          /\ Forall (fun xt => exists e, In e (q_heap (b_queue b')) /\ di_id (fst xt) = ev_id e /\ di_skill (fst xt) = ev_skill e
                       /\ snd xt = ev_primary e) r).
Proof. exact (traces_back_same b b' tk tk' qu' l st sim). Qed.
Print Assumptions C47_traced_same_builder.

(** C48 *)
Theorem C48_as_new_partial st lib tk b b' tk1 qu1 l1 qu2 :
  db_init st lib = Ok tk -> reachable b -> get_skill_timing b = Ok b' ->
  (forall e, In e (q_heap (b_queue b')) -> traceless (ev_skill e)) ->
  get_damage_instances tk (b_queue b') = Ok (tk1, qu1, l1) ->
  outcome (get_damage_instances tk1 qu2) = outcome (get_damage_instances tk qu2).
Proof. exact (second_as_first st lib tk b b' tk1 qu1 l1 qu2). Qed.
Print Assumptions C48_as_new_partial.

Theorem C48_no_leak_refuted :
  ~ (forall b1 b1' tk tk1 q1 l1 b2 b2',
       simulated b1 b1' tk tk1 q1 l1 -> built b2 -> get_skill_timing b2 = Ok b2' ->
       b_stats b2 = b_stats b1 -> b_library b2 = b_library b1 ->
       outcome (get_damage_instances tk1 (b_queue b2')) = outcome (get_damage_instances tk (b_queue b2'))).
Proof. exact no_leak_refuted. Qed.
Print Assumptions C48_no_leak_refuted.

(** C51 *)
Theorem C51_clash_partial l x :
  heappush inst_lt l x = Err TypeError ->
  exists i j, In i (x :: l) /\ In j (x :: l) /\ di_time i = di_time j /\ sk_name (di_skill i) = sk_name (di_skill j)
    /\ modifier_eqb (di_modifier i) (di_modifier j) = true
    /\ (effects_eqb (fst (di_effects i)) (fst (di_effects j)) = false \/ effects_eqb (snd (di_effects i)) (snd (di_effects j)) = false).
Proof. exact (push_clash l x). Qed.
Print Assumptions C51_clash_partial.

Theorem C51_never_raises_refuted :
  ~ (forall b b' tk, built b -> get_skill_timing b = Ok b' -> db_init (b_stats b) (b_library b) = Ok tk ->
       exists r, get_damage_instances tk (b_queue b') = Ok r).
Proof. exact never_raises_refuted. Qed.
Print Assumptions C51_never_raises_refuted.

(** ** Examples *)

(** Lead (with its follow-up Echo) and then Hit on two targets, one of them weakened. *)
Definition ex_damage : res builder :=
  and_add (and_add (and_add (dx_builder None) 0 "Lead" None (Some "A")) 1 "Weaken" None (Some "B")) 2 "Hit" None (Some "A, B").
Example ex_damage_built : all_built ex_damage.
Proof. repeat apply and_add_built. apply init_built. Qed.
Example ex_damage_shown :
  match ex_damage with
  | Ok b => match get_skill_timing b with
            | Ok b' => match get_damage_instances dx_trackers (b_queue b') with
                       | Ok (tk', qu', l) =>
                           q_is_empty qu' = true
                           /\ map seen l = [(500, "Echo", "A", 1, [], []); (500, "Lead", "A", 0, [], []);
                                            (2500, "Hit", "A", 3, ["Lead"], []); (2635, "Hit", "B", 3, ["Lead"], ["Weaken"])]
                           /\ match ds_init fx_stats l with
                              | Ok sim => match add_damage_snapshots sim b' with
                                          | Ok r => map snd r = [0; 0; 2000; 2000]
                                          | Err _ => False
                                          end
                              | Err _ => False
                              end
                       | Err _ => False
                       end
            | Err _ => False
            end
  | Err _ => False
  end.
Proof. vm_compute. repeat split. Qed.

(** Hit and Quick grant nothing, Lead does. *)
Example ex_traceless : traceless fx_hit /\ traceless fx_ogcd /\ ~ traceless dx_lead.
Proof.
  split; [intro m; repeat split; reflexivity|]. split; [intro m; repeat split; reflexivity|].
  intro H. destruct (H default_modifier) as (E & _). vm_compute in E. discriminate E.
Qed.
