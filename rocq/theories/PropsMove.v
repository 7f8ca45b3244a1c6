(** * Moving a rotation in time (property C70) *)

From Coq Require Import ZArith QArith List String Bool Lia.
From Verif Require Import Base Float Strings Types Lookup Stats Library StatusEffect Channeling Events Rotation DamageBuild Damage Fixtures
  SpecTimeline SpecMove MoveRun MoveDamage MoveCase MoveGame GameLib.
Import ListNotations.
Open Scope string_scope.
Open Scope Z_scope.

(** ** C70: only differences of times matter *)

(** A rotation whose start, timed presses and downtime are all [d] ms later gives the same
    presses and events, [d] ms later, or raises the same exception. *)
Theorem C70_run d b b' :
  moved d b b' -> plain_dots b -> lasting_resources (b_library b) (st_job (b_stats b)) ->
  match get_skill_timing b with
  | Ok r => exists r', get_skill_timing b' = Ok r' /\ moved d r r'
  | Err e => get_skill_timing b' = Err e
  end.
Proof. intros (M & S & W) P R. exact (run_moved d b b' M P R S W). Qed.
Print Assumptions C70_run.

(** The damage instances of a later timeline are those of the timeline, later. *)
Theorem C70_instances d st lib tk qu :
  lasting_resources lib (st_job st) -> db_init st lib = Ok tk ->
  match get_damage_instances tk qu with
  | Ok (_, _, out) => exists tk' qu', get_damage_instances tk (queue_later d qu) = Ok (tk', qu', map (instance_later d) out)
  | Err e => get_damage_instances tk (queue_later d qu) = Err e
  end.
Proof. exact (instances_move d st lib tk qu). Qed.
Print Assumptions C70_instances.

(** The report - expected damage, variance, sampled damage and damage per second - is the
    same. *)
Theorem C70_report d b b' samples u_range u_sample :
  moved d b b' -> plain_dots b -> lasting_resources (b_library b) (st_job (b_stats b)) ->
  report_of b' samples u_range u_sample = report_of b samples u_range u_sample.
Proof. exact (report_moved d b b' samples u_range u_sample). Qed.
Print Assumptions C70_report.

(** In the shipped libraries only BLM has resources that run out. *)
Theorem C70_shipped v lv lib job :
  create_skill_library v lv = Ok lib -> job <> "BLM" -> lasting_resources lib job.
Proof. exact (shipped_lasting v lv lib job). Qed.
Print Assumptions C70_shipped.

(** Rotations built by the same calls with later times are so related. *)
Theorem C70_init d st lib snap autos trailing t w w' target b :
  rb_init st lib snap autos trailing (Some t) w target = Ok b ->
  windows_moved d (init_downtime_windows w) (init_downtime_windows w') ->
  exists b', rb_init st lib snap autos trailing (Some (t + d)) w' target = Ok b' /\ moved d b b'.
Proof. exact (init_moved d st lib snap autos trailing t w w' target b). Qed.
Print Assumptions C70_init.

Theorem C70_add d b b' t t' name m job target :
  moved d b b' -> qtrunc (fmul (q 1000) t') = qtrunc (fmul (q 1000) t) + d ->
  match add b t name m job target with
  | Ok r => exists r', add b' t' name m job target = Ok r' /\ moved d r r'
  | Err e => add b' t' name m job target = Err e
  end.
Proof. exact (moved_add d b b' t t' name m job target). Qed.
Print Assumptions C70_add.

Theorem C70_add_next d b b' name m job n target :
  moved d b b' ->
  match add_next b name m job n target with
  | Ok r => exists r', add_next b' name m job n target = Ok r' /\ moved d r r'
  | Err e => add_next b' name m job n target = Err e
  end.
Proof. exact (moved_add_next d b b' name m job n target). Qed.
Print Assumptions C70_add_next.

(** Without a start of the fight, timed presses that do damage give the same result
    wherever they are. *)
Theorem C70_zeroed d b b' r :
  presses_moved d b b' -> plain_dots b -> lasting_resources (b_library b) (st_job (b_stats b)) ->
  b_fight_start b = None -> b_fight_start b' = None -> b_sequence b = [] -> b_windows b' = b_windows b ->
  (b_autos b = false \/ b_windows b = WTuple []) ->
  get_skill_timing b = Ok r ->
  (exists e c, In e (timeline r) /\ damages e c) ->
  exists r', get_skill_timing b' = Ok r' /\ b_press r' = b_press r /\ b_queue r' = b_queue r.
Proof. exact (run_zeroed_timeline d b b' r). Qed.
Print Assumptions C70_zeroed.

(** *** The hypotheses met: autos, DoTs, casts and downtime, 7.3 s later *)
Definition c70_rotation (start : Z) (t1 t2 t3 : Q) (from to : Q) : res builder :=
  let* b := fx_builder true false (Some start) (RWTuple [(from, to, Some DC_DIRECT)]) in
  let* b := add b t1 "Boost" None None None in
  let* b := add b t2 "Burn" None None (Some "Boss, Add") in
  let* b := add b t3 "Hit" None None None in
  add_next b "Cast" None None 4 None.
Definition c70_here := c70_rotation 500 (dec 7 10) (dec 8 10) (dec 41 10) (q 4) (q 5).
Definition c70_there := c70_rotation 7800 (dec 8 1) (dec 81 10) (dec 114 10) (dec 113 10) (dec 123 10).
Definition c70_u : nat -> nat -> draws := fun i j => (dec 3 10, dec 2 10, dec 9 10).

Example C70_case_hypotheses :
  match c70_here, c70_there with
  | Ok b, Ok b' => moved 7300 b b' /\ plain_dots b /\ lasting_resources (b_library b) (st_job (b_stats b))
  | _, _ => False
  end.
Proof.
  assert (exists b, c70_here = Ok b) as (b & E) by (eexists; vm_compute; reflexivity).
  assert (exists b', c70_there = Ok b') as (b' & E') by (eexists; vm_compute; reflexivity).
  rewrite E, E'. revert E E'. vm_compute. intros E E'. injection E as <-. injection E' as <-.
  split; [|split].
  - repeat (split; [reflexivity|]). split; [repeat (split; [reflexivity|]); reflexivity|].
    split; [eexists; split; reflexivity|]. constructor; [|constructor]. repeat split; reflexivity.
  - split; reflexivity.
  - intros rs n c E I. injection E as <-. destruct I.
Qed.
Definition c70_shape (b : res builder) : option (list (Z * string) * list (Z * string)) :=
  match b with
  | Ok b => match get_skill_timing b with
            | Ok r => Some (map (fun p => (pr_time p, pr_name p)) (b_press r), map (fun e => (ev_primary e, sk_name (ev_skill e))) (get_q (b_queue r)))
            | Err _ => None
            end
  | Err _ => None
  end.
Definition c70_report (b : res builder) : option (list Z * list (option Z)) :=
  match b with
  | Ok b => match report_of b 3 c70_u c70_u with
            | Ok r => Some (map Qround.Qfloor (rp_damage r), map (option_map Qround.Qfloor) (rp_dps r))
            | Err _ => None
            end
  | Err _ => None
  end.
Example C70_case :
  c70_shape c70_here
    = Some ([(500, "Cast"); (700, "Boost"); (800, "Burn"); (2940, "Cast"); (4100, "Hit"); (5380, "Cast"); (7820, "Cast")],
            ((700, "Boost") :: (800, "Burn") :: repeat (800, "Burn (tick)") 10
             ++ [(1200, "Auto"); (1460, "Cast"); (4640, "Auto"); (6340, "Cast"); (8080, "Auto"); (8780, "Cast"); (11520, "Auto")])%list)
  /\ c70_shape c70_there
    = option_map (fun x => (map (fun p => (fst p + 7300, snd p)) (fst x), map (fun p => (fst p + 7300, snd p)) (snd x))) (c70_shape c70_here)
  /\ c70_report c70_here = Some ([103852; 103852; 103852], [Some 8654; Some 8654; Some 8654])
  /\ c70_report c70_there = c70_report c70_here.
Proof. vm_compute. auto. Qed.

(** Two timed presses around one second, around minus nine, and without a start. *)
Definition c70_free (t1 t2 : Q) : res builder :=
  let* b := fx_builder true false None (RWTuple []) in
  let* b := add b t1 "Burn" None None None in
  add b t2 "Hit" None None None.
Example C70_case_zeroed_hypotheses :
  match c70_free (q 1) (dec 35 10), c70_free (q (-9)) (dec (-65) 10) with
  | Ok b, Ok b' =>
      presses_moved (-10000) b b' /\ plain_dots b /\ b_fight_start b = None /\ b_sequence b = [] /\ b_windows b = WTuple [] /\ b_windows b' = WTuple []
  | _, _ => False
  end.
Proof. vm_compute. repeat split; reflexivity. Qed.
Example C70_case_zeroed :
  c70_shape (c70_free (q 1) (dec 35 10)) = c70_shape (c70_free (q (-9)) (dec (-65) 10))
  /\ option_map fst (c70_shape (c70_free (q 1) (dec 35 10))) = Some [(-400, "Burn"); (2100, "Hit")].
Proof. vm_compute. auto. Qed.

(** *** What does depend on where zero is *)

(** A resource that runs out does not if its last gain was at time 0. *)
Theorem C70_expiry_refuted :
  exists d b b' n u u', moved d b b' /\ plain_dots b /\ is_ok (report_of b n u u') = true /\ is_ok (report_of b' n u u') = true
    /\ report_of b' n u u' <> report_of b n u u'.
Proof. exact expiry_matters. Qed.
Print Assumptions C70_expiry_refuted.

(** No trailing tick is dropped if the last event before them is at time 0. *)
Theorem C70_trailing_refuted :
  exists d b b' n u u', moved d b b' /\ b_snap_dots b = None /\ lasting_resources (b_library b) (st_job (b_stats b))
    /\ is_ok (report_of b n u u') = true /\ is_ok (report_of b' n u u') = true
    /\ report_of b' n u u' <> report_of b n u u'.
Proof. exact trailing_matters. Qed.
Print Assumptions C70_trailing_refuted.

(** The expected and sampled damage of both pairs: a 500 potency hit where the resource
    should have run out; four ticks too many. *)
Example C70_zero_damage :
  map damage_of [heat_rotation 0 (q 0) (q 20); heat_rotation 1000 (q 1) (q 21)] = [Ok ([27014], [25662]); Ok ([5399], [5128])]
  /\ map damage_of [burn_rotation true (-400) (dec (-4) 10); burn_rotation true 600 (dec 6 10)]
     = [Ok ([10806; 2755; 2755; 2755; 2755; 2755], [23356]); Ok ([10806; 2755], [12884])].
Proof. vm_compute. auto. Qed.
