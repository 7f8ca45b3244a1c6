(** * C01-C05: the event queue *)

From Coq Require Import ZArith QArith List String Bool Permutation Sorted.
From Verif Require Import Base Types Events SpecQueue EventsFacts Fixtures Lookup.
Import ListNotations.
Open Scope Z_scope.

(** C01.  Whatever calls of [add] built the queue, draining it succeeds and yields
    exactly the stored events in non-decreasing (priority, name) order. *)
Theorem C01_queue_drains_in_order : forall l : list add_call,
  exists qu out,
    foldM api_add l q_init = Ok qu /\ q_drain qu = Ok out
    /\ Permutation out (stored_events 0 l) /\ StronglySorted key_le out.
Proof. exact queue_drains_in_order. Qed.
Print Assumptions C01_queue_drains_in_order.

(** C01, for clients that interleave [add] and [get_next]: every run is a run of an
    abstract priority queue over a bag of events. *)
Theorem C01_queue_refines_bag : forall ops st,
  foldM api_op ops (q_init, []) = Ok st ->
  abs_run ([], 0, []) ops (q_heap (fst st), q_next_id (fst st), snd st).
Proof. exact queue_refines_bag. Qed.
Print Assumptions C01_queue_refines_bag.

(** C01: such a run fails exactly when it pops an empty queue. *)
Theorem C01_queue_ok_iff_guarded : forall ops,
  (exists st, foldM api_op ops (q_init, []) = Ok st) <-> guarded 0 ops.
Proof. exact queue_ok_iff_guarded. Qed.
Print Assumptions C01_queue_ok_iff_guarded.

(** C02.  [get_q] returns the events of the queue, sorted, ties in internal order. *)
Theorem C02_get_q_faithful : forall qu,
  Permutation (get_q qu) (q_heap qu)
  /\ StronglySorted key_le (get_q qu)
  /\ forall p n, filter (same_key p n) (get_q qu) = filter (same_key p n) (q_heap qu).
Proof. intros qu. exact (conj (get_q_perm qu) (conj (get_q_sorted qu) (get_q_stable qu))). Qed.
Print Assumptions C02_get_q_faithful.

(** C03, queue part: events added without an id get ids 0, 1, 2, ... in the order of
    the calls.  (The timeline part is [C03_timeline_ids] in PropsTimeline.v.) *)
Theorem C03_ids_sequential : forall l qu,
  (forall c, In c l -> ad_id c = None) ->
  foldM api_add l q_init = Ok qu ->
  exists evs,
    Permutation (q_heap qu) evs
    /\ map ev_id evs = map Z.of_nat (seq 0 (List.length l))
    /\ Forall2 (fun c e => ev_priority e = ad_priority c /\ ev_primary e = ad_primary c
                           /\ ev_skill e = ad_skill c /\ ev_modifier e = ad_modifier c
                           /\ ev_targets e = ad_targets c) l evs.
Proof. exact queue_ids_sequential. Qed.
Print Assumptions C03_ids_sequential.

(** C04.  What a single [add] stores; the other events stay. *)
Theorem C04_add_stores : forall qu c qu',
  api_add qu c = Ok qu' ->
  exists e,
    Permutation (q_heap qu') (e :: q_heap qu)
    /\ ev_primary e = ad_primary c
    /\ (ad_secondary c = Some (ad_primary c) ->
        ev_secondary e = None /\ ev_snap e = (SFlag true, SFlag true))
    /\ (ad_secondary c <> Some (ad_primary c) ->
        ev_secondary e = ad_secondary c /\ ev_snap e = ad_snap c)
    /\ ev_priority e = ad_priority c /\ ev_skill e = ad_skill c /\ ev_modifier e = ad_modifier c
    /\ ev_targets e = ad_targets c /\ ev_jr_added e = ad_jr_added c
    /\ ev_jr_cond e = ad_jr_cond c /\ ev_combo_cond e = ad_combo_cond c
    /\ (forall i, ad_id c = Some i -> ev_id e = i /\ q_next_id qu' = q_next_id qu)
    /\ (ad_id c = None -> ev_id e = q_next_id qu /\ q_next_id qu' = q_next_id qu + 1).
Proof. exact add_collapse. Qed.
Print Assumptions C04_add_stores.

Theorem C04_add_total : forall qu c, exists qu', api_add qu c = Ok qu'.
Proof. exact api_add_total. Qed.
Print Assumptions C04_add_total.

(** C05. *)
Theorem C05_last_event_time : forall qu,
  (get_last_event_time qu = None <-> q_heap qu = [])
  /\ forall t, get_last_event_time qu = Some t ->
       (exists e, In e (q_heap qu) /\ effect_time e t)
       /\ (forall e t', In e (q_heap qu) -> effect_time e t' -> t' <= t).
Proof. exact last_event_time_spec. Qed.
Print Assumptions C05_last_event_time.

Theorem C05_first_damage_time : forall qu r,
  get_first_damage_time qu = Ok r ->
  (r = None <-> forall e, In e (q_heap qu) -> ~ deals_damage e)
  /\ forall t, r = Some t ->
       (exists e, In e (q_heap qu) /\ deals_damage e /\ effect_time e t)
       /\ (forall e t', In e (q_heap qu) -> deals_damage e -> effect_time e t' -> t <= t').
Proof. exact first_damage_time_spec. Qed.
Print Assumptions C05_first_damage_time.

Theorem C05_first_damage_total : forall qu,
  (exists r, get_first_damage_time qu = Ok r)
  <-> forall e, In e (q_heap qu) -> exists o, get_damage_spec (ev_skill e) (ev_modifier e) = Ok o.
Proof. exact first_damage_time_total. Qed.
Print Assumptions C05_first_damage_total.

(** ** Examples *)

Definition ex_call (p t : Z) (t2 : option Z) (s : skill) : add_call :=
  mkAdd p t t2 s default_modifier (SFlag true, SFlag false) None false false false ["T"%string].
Definition ex_calls : list add_call :=
  [ex_call 3000 3 (Some 8) fx_hit; ex_call 1000 1 (Some 1) fx_ogcd; ex_call 3000 3 None fx_cast;
   ex_call 2000 2 (Some 7) fx_buff].

Example ex_drain :
  (let* qu := foldM api_add ex_calls q_init in
   let* l := q_drain qu in Ok (map (fun e => (sk_name (ev_skill e), ev_id e)) l))
  = Ok [("Quick", 1); ("Boost", 3); ("Cast", 2); ("Hit", 0)]%string.
Proof. vm_compute. reflexivity. Qed.
Example ex_ids : forall c, In c ex_calls -> ad_id c = None.
Proof. intros c H. repeat (destruct H as [<-|H]; [reflexivity|]). destruct H. Qed.
Example ex_guarded : guarded 0 [OpAdd (ex_call 1 1 None fx_hit); OpNext].
Proof. exists 0%nat. split; [reflexivity | exact I]. Qed.
Example ex_extrema :
  (let* qu := foldM api_add ex_calls q_init in
   let* f := get_first_damage_time qu in Ok (f, get_last_event_time qu)) = Ok (Some 1, Some 8).
Proof. vm_compute. reflexivity. Qed.
