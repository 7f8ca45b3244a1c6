(** * C46, C49, C50: imports, example rotations and analyses *)

From Coq Require Import ZArith QArith Qround List String Bool Sorted.
From Verif Require Import Base Float Types Stats Library Rotation Csv SpecRun SpecCsv CsvFacts CsvCounter Fixtures.
Import ListNotations.
Open Scope string_scope.
Open Scope Z_scope.

(** C46 *)
Theorem C46_one_press_per_row b file b' : populate_rotation b file = Ok b' ->
  exists xs, b_timed b' = (b_timed b ++ xs)%list /\ b_sequence b' = b_sequence b /\ same_settings b b'
    /\ Forall2 (pressed_by_row b) (rows_of file) xs.
Proof. exact (populate_presses b file b'). Qed.
Print Assumptions C46_one_press_per_row.

Theorem C46_known_rows_succeed b file :
  (forall r, In r (rows_of file) -> row_known b r) -> exists b', populate_rotation b file = Ok b'.
Proof. exact (populate_total b file). Qed.
Print Assumptions C46_known_rows_succeed.

Theorem C46_unknown_row_raises b file r :
  In r (rows_of file) -> ~ row_known b r -> populate_rotation b file = Err KeyError.
Proof. exact (populate_unknown b file r). Qed.
Print Assumptions C46_unknown_row_raises.

(** C49 *)
Theorem C49_dealt_before l t : (snapshots_before l t == dealt_by l (fmul 1000 t))%Q.
Proof. exact (snapshots_dealt l t). Qed.
Print Assumptions C49_dealt_before.

Theorem C49_never_decreases l s t :
  (forall x, In x l -> (0 <= pk_expected x)%Q) -> (s <= t)%Q -> (snapshots_before l s <= snapshots_before l t)%Q.
Proof. exact (snapshots_mono l s t). Qed.
Print Assumptions C49_never_decreases.

(** The times are the multiples of the interval before the last snapshot (rounded up
    to a whole second), and the last snapshot. *)
Theorem C49_interval_times l k rs m : 0 < k -> dps_at_intervals l k = Ok rs -> last_snapshot l m ->
  exists steps,
    rs = (map (fun z => (inject_Z z, snapshots_before l (inject_Z z))) steps
          ++ [(fdiv (inject_Z m) 1000, snapshots_before l (fdiv (inject_Z m) 1000))])%list
    /\ StronglySorted Z.lt steps
    /\ forall z, In z steps <-> (exists j, 1 <= j /\ z = k * j) /\ z < Qceiling (fdiv (inject_Z m) 1000).
Proof. exact (intervals_shape l k rs m). Qed.
Print Assumptions C49_interval_times.

Theorem C49_succeeds l k : 0 < k -> exists rs, dps_at_intervals l k = Ok rs.
Proof. exact (intervals_total l k). Qed.
Print Assumptions C49_succeeds.

(** The last entry is everything, or everything but the instances of the last
    snapshot time, depending on how that time is rounded. *)
Theorem C49_last_entry_partial l m : last_snapshot l m -> 0 <= m <= 2 ^ 50 ->
  let v := snapshots_before l (fdiv (inject_Z m) 1000) in
  ((inject_Z m <= fmul 1000 (fdiv (inject_Z m) 1000))%Q /\ (v == dealt l)%Q)
  \/ ((fmul 1000 (fdiv (inject_Z m) 1000) < inject_Z m)%Q /\ (v == dealt_by l (inject_Z (m - 1)))%Q).
Proof. exact (last_entry l m). Qed.
Print Assumptions C49_last_entry_partial.

Theorem C49_last_entry_is_total_refuted :
  ~ (forall l k rs t v, 0 < k -> dps_at_intervals l k = Ok (rs ++ [(t, v)])%list -> (v == dealt l)%Q).
Proof. exact last_entry_refuted. Qed.
Print Assumptions C49_last_entry_is_total_refuted.

(** C50 *)
Theorem C50_presses_partial b party skills b' : example_rotation b party skills = Ok b' ->
  exists xss ys, b_timed b' = (b_timed b ++ List.concat xss)%list /\ b_sequence b' = (b_sequence b ++ ys)%list /\ same_settings b b'
    /\ Forall2 (party_presses b) party xss /\ Forall2 (seq_for b) skills ys.
Proof. exact (example_presses b party skills b'). Qed.
Print Assumptions C50_presses_partial.

Theorem C50_one_press_refuted :
  ~ (forall b party skills b', example_rotation b party skills = Ok b' ->
       List.length (b_timed b') = (List.length (b_timed b) + List.length party)%nat).
Proof. exact party_twice. Qed.
Print Assumptions C50_one_press_refuted.

(** ** Examples *)

Definition ex_rows : list csv_row :=
  [mkCsv 3 "Hit" "" "" None; mkCsv (dec 1500 1000) "Boost" "test_job" "No Combo , Buffed" (Some "");
   mkCsv 0 "Burn" "" "" (Some "A, B")].
Example ex_import :
  match fx_builder false false (Some 0) (RWTuple []) with
  | Ok b => match populate_rotation b (Some ex_rows) with
            | Ok b' => map (fun x => (tm_time x, sk_name (tm_skill x), sm_cond (tm_modifier x), tm_targets x)) (b_timed b')
                = [(3000, "Hit", [], ["Default Target"]); (1500, "Boost", ["No Combo"; "Buffed"], ["Default Target"]);
                   (0, "Burn", [], ["A"; "B"])]
            | Err _ => False
            end
  | Err _ => False
  end.
Proof. vm_compute. reflexivity. Qed.
Example ex_known :
  match fx_builder false false (Some 0) (RWTuple []) with
  | Ok b => forall r, In r ex_rows -> row_known b r
  | Err _ => False
  end.
Proof. vm_compute. intros r [<-|[<-|[<-|[]]]]; eexists; reflexivity. Qed.
Example ex_unknown :
  match fx_builder false false (Some 0) (RWTuple []) with
  | Ok b => populate_rotation b (Some [mkCsv 3 "Hit" "" "" None; mkCsv 4 "Nothing" "" "" None]) = Err KeyError
  | Err _ => False
  end.
Proof. vm_compute. reflexivity. Qed.
Definition ex_per : list per_skill := [mkPer 0 100; mkPer 4200 30; mkPer 9000 20].
Example ex_intervals :
  match dps_at_intervals ex_per 4 with
  | Ok rs => map (fun p => (Qred (fst p), Qred (snd p))) rs = [(4, 100); (8, 130); (9, 150)]%Q
  | Err _ => False
  end.
Proof. vm_compute. reflexivity. Qed.
Example ex_last : last_snapshot ex_per 9000.
Proof.
  split; [intros x [<-|[<-|[<-|[]]]]; cbn; discriminate|]. split; [discriminate|]. right.
  exists (mkPer 9000 20). split; [cbn; tauto | reflexivity].
Qed.
Example ex_party :
  match fx_builder false false (Some 0) (RWTuple []) with
  | Ok b => match example_rotation b [mkParty 1 "Boost" "test_job" None] ["Hit"; "Quick"] with
            | Ok b' => map tm_time (b_timed b') = [1000] /\ map (fun x => sk_name (sq_skill x)) (b_sequence b') = ["Hit"; "Quick"]
            | Err _ => False
            end
  | Err _ => False
  end.
Proof. vm_compute. repeat split. Qed.
