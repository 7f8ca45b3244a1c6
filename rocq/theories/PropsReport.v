(** * C79-C81: what the simulator reports *)

From Coq Require Import ZArith QArith Qround List String Bool Lqa Permutation.
From Verif Require Import Base Float Types Lookup StatusEffect Stats Events Rotation DamageBuild Damage Report Fixtures SpecHit SpecRun SpecReport HitProps ReportFacts.
Import ListNotations.
Open Scope string_scope.
Open Scope Z_scope.

(** C79: one line per instance, in order of time *)
Theorem C79_lines st l n a b u v s : make_sim st l n a b u v = Ok s ->
  exists xs ranges ps, in_time_order l xs /\ get_damage_ranges s u = Ok ranges /\ get_per_skill_damage s None = Ok ps
    /\ map fst ranges = map (fun x => sk_name (di_skill x)) xs
    /\ Forall2 (fun xo p => line_of (fst xo) (snd (snd xo)) p /\ pd_snapshot p = None) (combine xs ranges) ps
    /\ List.length ps = List.length l
    /\ get_event_ids s = map di_id xs /\ get_damage_time s = map di_time xs
    /\ get_expected_damage_per_damage_instance s = map pd_expected ps
    /\ get_variance_per_damage_instance s = map pd_variance ps
    /\ get_expected_damage s = sum (map pd_expected ps) /\ get_damage_variance s = sum (map pd_variance ps).
Proof. exact (report_lines st l n a b u v s). Qed.
Print Assumptions C79_lines.

(** There is only one such order. *)
Theorem C79_one_order l xs ys : in_time_order l xs -> in_time_order l ys -> xs = ys.
Proof. intros X Y. exact (eq_trans (order_unique l xs X) (eq_sym (order_unique l ys Y))). Qed.
Print Assumptions C79_one_order.

Theorem C79_rates st l n a b u v s xs : make_sim st l n a b u v = Ok s -> in_time_order l xs ->
  exists cs hs ts, get_crit_and_dh_rates s = Ok (cs, hs) /\ get_trait_damage_mult s = Ok ts
    /\ List.length cs = List.length l /\ List.length hs = List.length l /\ List.length ts = List.length l
    /\ forall i x, nth_error xs i = Some x -> exists c h t, nth_error cs i = Some c /\ nth_error hs i = Some h /\ nth_error ts i = Some t
         /\ rates_of st x c h t.
Proof. exact (report_rates st l n a b u v s xs). Qed.
Print Assumptions C79_rates.

(** Raw damage is the sum of each column of the matrix, DPS that per second; the crits
    and direct hits saved with it are those drawn against the instance's rates. *)
Theorem C79_samples st l n u v s xs : make_sim st l n true true u v = Ok s -> in_time_order l xs ->
  exists m cr dh, get_damage_matrix s = Some m /\ get_crit_status s = Ok cr /\ get_dh_status s = Ok dh
    /\ (List.length m = List.length l /\ List.length cr = List.length l /\ List.length dh = List.length l)
    /\ (forall r, In r m -> List.length r = n) /\ (forall r, In r cr -> List.length r = n) /\ (forall r, In r dh -> List.length r = n)
    /\ get_raw_damage s = map (fun j => sum (map (fun r => nth j r 0%Q) m)) (seq 0 n)
    /\ get_dps s = map (fun d => if Qle_bool (seconds xs) 0 then None else Some (d / seconds xs)%Q) (get_raw_damage s)
    /\ forall i j x cs hs c h, nth_error xs i = Some x -> nth_error cr i = Some cs -> nth_error dh i = Some hs -> nth_error cs j = Some c -> nth_error hs j = Some h ->
         exists crit dh t, rates_of st x crit dh t
           /\ (c = true <-> (snd (fst (v i j)) <= crit)%Q) /\ (h = true <-> (snd (v i j) <= dh)%Q).
Proof. exact (report_samples st l n u v s xs). Qed.
Print Assumptions C79_samples.

(** A cell of the matrix is in the reported range of its instance for the crit and
    direct hit saved for the cell. *)
Theorem C79_cells g st l n u u' v s : stats_of g = Ok st -> (0 <= g_crit g)%Q -> Forall mults_nonneg l -> fair u' -> (forall i j, drawn (v i j)) ->
  make_sim st l n true true u v = Ok s ->
  exists ranges m cr dh, get_damage_ranges s u' = Ok ranges /\ get_damage_matrix s = Some m /\ get_crit_status s = Ok cr /\ get_dh_status s = Ok dh
    /\ forall i j nm os ds cs hs d c h, nth_error ranges i = Some (nm, os) -> nth_error m i = Some ds -> nth_error cr i = Some cs -> nth_error dh i = Some hs ->
         nth_error ds j = Some d -> nth_error cs j = Some c -> nth_error hs j = Some h ->
         exists o, In o os /\ o_label o = label_of c h /\ (o_low o <= d <= o_high o)%Q.
Proof. exact (report_cells g st l n u u' v s). Qed.
Print Assumptions C79_cells.

(** Saving the matrix or the statuses changes nothing else; what was not saved is None
    or raises AttributeError. *)
Theorem C79_saving st l n a b u v s : make_sim st l n true true u v = Ok s ->
  exists s', make_sim st l n a b u v = Ok s'
    /\ get_damage_matrix s' = (if a then get_damage_matrix s else None)
    /\ get_crit_status s' = (if b then get_crit_status s else Err AttributeError)
    /\ get_dh_status s' = (if b then get_dh_status s else Err AttributeError)
    /\ (forall rb, get_per_skill_damage s' rb = get_per_skill_damage s rb) /\ (forall u', get_damage_ranges s' u' = get_damage_ranges s u')
    /\ get_raw_damage s' = get_raw_damage s /\ get_dps s' = get_dps s /\ get_event_ids s' = get_event_ids s /\ get_damage_time s' = get_damage_time s
    /\ get_crit_and_dh_rates s' = get_crit_and_dh_rates s /\ get_trait_damage_mult s' = get_trait_damage_mult s
    /\ get_expected_damage_per_damage_instance s' = get_expected_damage_per_damage_instance s
    /\ get_variance_per_damage_instance s' = get_variance_per_damage_instance s.
Proof. exact (saving st l n a b u v s). Qed.
Print Assumptions C79_saving.

(** With a rotation builder: the snapshot time of the event with the line's id. *)
Theorem C79_snapshots s b b' ps' : get_skill_timing b = Ok b' -> get_per_skill_damage s (Some b) = Ok ps' ->
  exists ps, get_per_skill_damage s None = Ok ps
    /\ Forall2 (fun p p' => exists e, In e (q_heap (b_queue b')) /\ ev_id e = pd_id p /\ sk_name (ev_skill e) = pd_name p
                 /\ but_snapshot p p' (ev_primary e)) ps ps'.
Proof. exact (report_snapshots s b b' ps'). Qed.
Print Assumptions C79_snapshots.

Theorem C79_snapshots_found b b' tk tk' qu' l st n sm ss u v s b2 b2' :
  reachable b -> get_skill_timing b = Ok b' -> get_damage_instances tk (b_queue b') = Ok (tk', qu', l) ->
  make_sim st l n sm ss u v = Ok s -> get_skill_timing b2 = Ok b2' -> b_queue b2' = b_queue b' ->
  exists ps, get_per_skill_damage s (Some b2) = Ok ps.
Proof. exact (report_traced b b' tk tk' qu' l st n sm ss u v s b2 b2'). Qed.
Print Assumptions C79_snapshots_found.

Definition rx_stats : stats := gx_stats (gx 3330).
Definition rx_hits : list instance := [gx_inst 3000 fx_ogcd; gx_inst 500 fx_hit].
Example C79_example : stats_of (gx 3330) = Ok rx_stats /\ Forall mults_nonneg rx_hits /\ fair half_draws /\ in_time_order rx_hits gx_hits
  /\ match make_sim rx_stats rx_hits 2 true true half_draws half_draws with
     | Ok s => map Qfloor (get_expected_damage_per_damage_instance s) = [15739; 3146] /\ get_event_ids s = [7; 7]
         /\ get_damage_time s = [500; 3000] /\ map Qfloor (get_raw_damage s) = [16535; 16535]
         /\ map (fun d => match d with Some x => Qfloor x | None => 0 end) (get_dps s) = [6614; 6614]
         /\ match get_per_skill_damage s None with
            | Ok ps => map (fun p => (pd_name p, Qfloor (pd_potency p), pd_target p)) ps = [("Hit", 500, "Default Target"); ("Quick", 100, "Default Target")]
            | Err _ => False
            end
     | Err _ => False
     end.
Proof.
  split; [vm_compute; reflexivity|]. split.
  { repeat constructor; try (vm_compute; discriminate); intros d H; vm_compute in H; injection H as <-; exact I. }
  split; [intros i k; cbn; lra|]. split.
  { split; [apply perm_swap|]. split; [repeat constructor; vm_compute; discriminate|]. intros t. unfold rx_hits, gx_hits. cbn [filter gx_inst di_time].
    destruct (Z.eqb_spec 500 t), (Z.eqb_spec 3000 t); try reflexivity. exfalso. congruence. }
  vm_compute. repeat split.
Qed.

(** With the rotation of the kill time examples, which the report runs again. *)
Definition rx_lines : res (list (Z * option Z * string * Z)) :=
  let b0 := kx_rotation "Hit" in
  let* b := get_skill_timing b0 in
  let* tk := db_init (b_stats b0) (b_library b0) in
  let* (_, _, l) := get_damage_instances tk (b_queue b) in
  let* s := make_sim (b_stats b0) l 1 false false half_draws half_draws in
  let* ps := get_per_skill_damage s (Some b) in
  Ok (map (fun p => (pd_time p, pd_snapshot p, pd_name p, pd_id p)) ps).
Example C79_snapshot_example :
  rx_lines = Ok [(500, Some 0, "Hit", 0); (2940, Some 2440, "Hit", 1); (5380, Some 4880, "Hit", 2)].
Proof. vm_compute. reflexivity. Qed.

(** C80: instances handed over in another order, or in parts *)
Theorem C80_order st l l' n a b u v : Permutation l l' -> NoDup (map di_time l) -> make_sim st l n a b u v = make_sim st l' n a b u v.
Proof. exact (order_same st l l' n a b u v). Qed.
Print Assumptions C80_order.

Theorem C80_order_totals st l l' n a b u v s : fair u -> Permutation l l' -> make_sim st l n a b u v = Ok s ->
  forall n' a' b' u' v', fair u' -> exists s', make_sim st l' n' a' b' u' v' = Ok s'
    /\ (get_expected_damage s' == get_expected_damage s)%Q /\ (get_damage_variance s' == get_damage_variance s)%Q.
Proof. exact (order_totals st l l' n a b u v s). Qed.
Print Assumptions C80_order_totals.

Theorem C80_parts st l1 l2 n a b u v s : fair u -> make_sim st (l1 ++ l2)%list n a b u v = Ok s -> l1 <> [] -> l2 <> [] ->
  forall n1 a1 b1 u1 v1 n2 a2 b2 u2 v2, fair u1 -> fair u2 ->
  exists s1 s2, make_sim st l1 n1 a1 b1 u1 v1 = Ok s1 /\ make_sim st l2 n2 a2 b2 u2 v2 = Ok s2
    /\ (get_expected_damage s == get_expected_damage s1 + get_expected_damage s2)%Q
    /\ (get_damage_variance s == get_damage_variance s1 + get_damage_variance s2)%Q.
Proof. exact (parts_add st l1 l2 n a b u v s). Qed.
Print Assumptions C80_parts.

Theorem C80_join st l1 l2 n1 a1 b1 u1 v1 n2 a2 b2 u2 v2 s1 s2 n a b u v :
  fair u1 -> fair u2 -> make_sim st l1 n1 a1 b1 u1 v1 = Ok s1 -> make_sim st l2 n2 a2 b2 u2 v2 = Ok s2 ->
  Z.of_nat (List.length l1 + List.length l2) <= 5000 -> exists s, make_sim st (l1 ++ l2)%list n a b u v = Ok s.
Proof. exact (parts_join st l1 l2 n1 a1 b1 u1 v1 n2 a2 b2 u2 v2 s1 s2 n a b u v). Qed.
Print Assumptions C80_join.

(** Parts one after the other, sample by sample, with the draws of the parts. *)
Theorem C80_samples st l1 l2 n a b u v1 v2 u1 u2 s s1 s2 :
  (forall x y, In x l1 -> In y l2 -> di_time x <= di_time y) ->
  make_sim st l1 n a b u1 v1 = Ok s1 -> make_sim st l2 n a b u2 v2 = Ok s2 ->
  make_sim st (l1 ++ l2)%list n a b u (first_then (List.length l1) v1 v2) = Ok s ->
  (forall j, (j < n)%nat -> nth j (get_raw_damage s) 0 == nth j (get_raw_damage s1) 0 + nth j (get_raw_damage s2) 0)%Q
  /\ get_damage_matrix s = match get_damage_matrix s1, get_damage_matrix s2 with Some m1, Some m2 => Some (m1 ++ m2)%list | _, _ => None end.
Proof. exact (samples_join st l1 l2 n a b u v1 v2 u1 u2 s s1 s2). Qed.
Print Assumptions C80_samples.

(** DPS is not shared out like this: it is per second between the first and the last hit,
    and infinite for one hit. *)
Theorem C80_dps_refuted : exists st l1 l2 s s1 s2 d, make_sim st (l1 ++ l2)%list 1 false false half_draws half_draws = Ok s
  /\ make_sim st l1 1 false false half_draws half_draws = Ok s1 /\ make_sim st l2 1 false false half_draws half_draws = Ok s2
  /\ get_dps s1 = [None] /\ get_dps s2 = [None] /\ get_dps s = [Some d].
Proof. exact dps_not_shared. Qed.
Print Assumptions C80_dps_refuted.

Example C80_example : Permutation rx_hits gx_hits /\ NoDup (map di_time rx_hits) /\ fair half_draws
  /\ (forall x y, In x [gx_inst 500 fx_hit] -> In y [gx_inst 3000 fx_ogcd] -> di_time x <= di_time y)
  /\ match make_sim rx_stats gx_hits 1 false false half_draws half_draws, make_sim rx_stats [gx_inst 500 fx_hit] 1 false false half_draws half_draws,
           make_sim rx_stats [gx_inst 3000 fx_ogcd] 1 false false half_draws half_draws with
     | Ok s, Ok s1, Ok s2 => map Qfloor (get_raw_damage s) = [16535] /\ map Qfloor (get_raw_damage s1) = [13780] /\ map Qfloor (get_raw_damage s2) = [2755]
         /\ Qfloor (get_expected_damage s) = 18885 /\ Qfloor (get_expected_damage s1) = 15739 /\ Qfloor (get_expected_damage s2) = 3146
     | _, _, _ => False
     end.
Proof.
  split; [apply perm_swap|]. split; [repeat constructor; cbn; intuition discriminate|]. split; [intros i k; cbn; lra|].
  split; [intros x y [<-|[]] [<-|[]]; vm_compute; discriminate|]. vm_compute. repeat split.
Qed.

(** C81: the expected best of k runs *)
Theorem C81_total x k trials pick : x <> [] -> (1 <= k)%nat -> (1 <= trials)%nat -> exists r, expected_max_in_k_runs x k trials pick = Ok r.
Proof. exact (runs_total x k trials pick). Qed.
Print Assumptions C81_total.

Theorem C81_raises x k trials pick : (1 <= trials)%nat -> x = [] \/ k = 0%nat -> expected_max_in_k_runs x k trials pick = Err ValueError.
Proof. exact (runs_none x k trials pick). Qed.
Print Assumptions C81_raises.

Theorem C81_between x k trials pick r lo hi : valid_picks x pick -> expected_max_in_k_runs x k trials pick = Ok r ->
  (forall y, In y x -> lo <= y <= hi)%Q -> (lo <= r <= hi)%Q.
Proof. exact (runs_between x k trials pick r lo hi). Qed.
Print Assumptions C81_between.

(** More runs, or better ones, are not worse with the same draws. *)
Theorem C81_more x x' k k' trials pick r r' : Forall2 Qle x x' -> (k <= k')%nat -> expected_max_in_k_runs x k trials pick = Ok r ->
  expected_max_in_k_runs x' k' trials pick = Ok r' -> (r <= r')%Q.
Proof. exact (runs_mono x x' k k' trials pick r r'). Qed.
Print Assumptions C81_more.

Theorem C81_best x k trials pick r top : expected_max_in_k_runs x k trials pick = Ok r -> valid_picks x pick ->
  (forall y, In y x -> y <= top)%Q -> (forall i, (i < trials)%nat -> exists j, (j < k)%nat /\ (nth (pick i j) x 0 == top)%Q) -> (r == top)%Q.
Proof. exact (runs_max x k trials pick r top). Qed.
Print Assumptions C81_best.

(** The mean over the trials of the best run of each. *)
Theorem C81_mean x k trials pick r : expected_max_in_k_runs x k trials pick = Ok r ->
  exists bests, List.length bests = trials /\ (r * inject_Z (Z.of_nat trials) == sum bests)%Q
    /\ forall i best, nth_error bests i = Some best ->
         (forall j, (j < k)%nat -> nth (pick i j) x 0 <= best)%Q /\ exists j, (j < k)%nat /\ best = nth (pick i j) x 0%Q.
Proof. exact (runs_mean x k trials pick r). Qed.
Print Assumptions C81_mean.

Definition rx_runs : list Q := [inject_Z 100; inject_Z 140; inject_Z 120].
Definition rx_pick (i j : nat) : nat := Nat.modulo (i + j) 3.
Example C81_example : valid_picks rx_runs rx_pick
  /\ (exists r, expected_max_in_k_runs rx_runs 1 4 rx_pick = Ok r /\ (r == inject_Z 115)%Q)
  /\ (exists r, expected_max_in_k_runs rx_runs 2 4 rx_pick = Ok r /\ (r == inject_Z 135)%Q)
  /\ (exists r, expected_max_in_k_runs rx_runs 3 4 rx_pick = Ok r /\ (r == inject_Z 140)%Q).
Proof.
  split; [intros i j; apply Nat.mod_upper_bound; discriminate|].
  split; [|split]; eexists; (split; [vm_compute; reflexivity|vm_compute; reflexivity]).
Qed.
