(** * Importing and analysing rotations.

    Models simulator/rotation_import_utils/csv_utils.py,
    example_rotations/example_rotation_utils.py and
    rotation_analysis/rotation_analysis_utils.py (the two deterministic functions). *)

From Coq Require Import ZArith QArith Qround List String Bool.
From Verif Require Import Base Float Strings Types Stats Library Events Rotation DamageBuild Damage.
Import ListNotations.
Open Scope string_scope.
Open Scope Z_scope.

(** A data row of the file as pandas delivers it (parsing and the column lookup are
    not modelled): the time, three string cells and the targets cell if that
    column exists. *)
Record csv_row := mkCsv {
  cr_time : Q; cr_skill : string; cr_job : string; cr_cond : string; cr_targets : option string
}.

Definition none_if_empty (s : string) : option string :=
  match s with EmptyString => None | _ => Some s end.

(** csv_utils.py lines 7-10 *)
Record rotation_csv := mkRotCsv {
  rc_time : Q; rc_skill : string; rc_job : option string; rc_cond : string; rc_targets : option string
}.
(** csv_utils.py lines 15-43; [None] is a missing file. *)
Definition read_rotation (file : option (list csv_row)) : list rotation_csv :=
  match file with
  | None => []
  | Some rows =>
      map (fun r => mkRotCsv (cr_time r) (cr_skill r) (none_if_empty (cr_job r)) (cr_cond r)
                      (match cr_targets r with Some s => none_if_empty s | None => None end)) rows
  end.

(** csv_utils.py lines 49-52 *)
Definition csv_modifier (c : string) : option modifier :=
  match c with EmptyString => None | _ => Some (modifier_with c) end.
(** csv_utils.py lines 48-59: one row *)
Definition add_csv_row (b : builder) (r : rotation_csv) : res builder :=
  add b (rc_time r) (rc_skill r) (csv_modifier (rc_cond r)) (rc_job r) (rc_targets r).
(** csv_utils.py lines 45-60 *)
Definition populate_rotation (b : builder) (file : option (list csv_row)) : res builder :=
  foldM add_csv_row (read_rotation file) b.

(** ** example_rotation_utils.py lines 14-34 *)

(** (time, skill, job, optional modifier) *)
Record party_skill := mkParty {
  ps_time : Q; ps_name : string; ps_job : string; ps_modifier : option modifier
}.
(** Lines 22-29: a party skill with a modifier is added twice. *)
Definition add_party_skill (b : builder) (p : party_skill) : res builder :=
  let* b1 := match ps_modifier p with
             | Some m => add b (ps_time p) (ps_name p) (Some m) (Some (ps_job p)) None
             | None => Ok b
             end in
  add b1 (ps_time p) (ps_name p) None (Some (ps_job p)) None.
(** Lines 15-34 for a valid rotation key *)
Definition example_rotation (b : builder) (party : list party_skill) (skills : list string) : res builder :=
  let* b1 := foldM add_party_skill party b in
  foldM (fun b s => add_next b s None None 1 None) skills b1.

(** ** rotation_analysis_utils.py *)

(** The two fields of PerInstanceDamage these functions read. *)
Record per_skill := mkPer { pk_snapshot : Z; pk_expected : Q }.

(** Lines 12-19, exact sum *)
Definition snapshots_before (l : list per_skill) (timestamp_s : Q) : Q :=
  let ts := fmul (q 1000) timestamp_s in
  fold_left (fun acc x => if Qle_bool (q (pk_snapshot x)) ts then (acc + pk_expected x)%Q else acc) l 0%Q.

(** Lines 23-26 *)
Definition max_snapshot (l : list per_skill) : Z :=
  fold_left (fun m x => if m <? pk_snapshot x then pk_snapshot x else m) l (-1).
(** Lines 30-31; [range] with step 0 raises ValueError, a negative step counts down. *)
Definition interval_stamps (l : list per_skill) (interval : Z) : res (list Q) :=
  let m := max_snapshot l in
  let stop := Qceiling (fdiv (q m) (q 1000)) in
  if interval =? 0 then Err ValueError
  else if interval <? 0 then Err Unmodelled
  else Ok (map q (range_step interval stop interval) ++ [fdiv (q m) (q 1000)])%list.
(** Lines 21-40, without the rounding to two decimals of line 39 *)
Definition dps_at_intervals (l : list per_skill) (interval : Z) : res (list (Q * Q)) :=
  let* ts := interval_stamps l interval in
  Ok (map (fun t => (t, snapshots_before l t)) ts).
