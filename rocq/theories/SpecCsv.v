(** * Specification vocabulary for imports and analyses (C46, C49, C50) *)

From Coq Require Import ZArith QArith Qround List String Bool.
From Verif Require Import Base Float Types Stats Library Rotation Csv SpecRun.
Import ListNotations.
Open Scope string_scope.
Open Scope Z_scope.

(** The job of a cell. *)
Definition job_of_cell (b : builder) (cell : string) : string :=
  if String.eqb cell "" then st_job (b_stats b) else cell.
Definition targets_of_cell (b : builder) (cell : option string) : string :=
  match cell with
  | Some s => if String.eqb s "" then b_default_target b else s
  | None => b_default_target b
  end.

(** The press a row asks for. *)
Definition pressed_by_row (b : builder) (r : csv_row) (x : timed) : Prop :=
  truncates (fmul 1000 (cr_time r)) (tm_time x)
  /\ tm_job x = job_of_cell b (cr_job r)
  /\ get_skill (b_library b) (cr_skill r) (tm_job x) = Ok (tm_skill x)
  /\ (cr_cond r = "" -> default_for b (tm_skill x) (tm_job x) (tm_modifier x))
  /\ (cr_cond r <> "" -> only_conditions (tm_modifier x) /\ conditions_named (cr_cond r) (sm_cond (tm_modifier x)))
  /\ targets_named (targets_of_cell b (cr_targets r)) (tm_targets x).

(** A missing file has no rows. *)
Definition rows_of (file : option (list csv_row)) : list csv_row := match file with Some l => l | None => [] end.
Definition row_known (b : builder) (r : csv_row) : Prop :=
  exists s, get_skill (b_library b) (cr_skill r) (job_of_cell b (cr_job r)) = Ok s.

(** The press a party skill asks for. *)
Definition pressed_by_party (b : builder) (p : party_skill) (x : timed) : Prop :=
  truncates (fmul 1000 (ps_time p)) (tm_time x)
  /\ tm_job x = ps_job p
  /\ get_skill (b_library b) (ps_name p) (ps_job p) = Ok (tm_skill x)
  /\ targets_named (b_default_target b) (tm_targets x).

(** The presses of one party skill: with a modifier, one with it and one without. *)
Definition party_presses (b : builder) (p : party_skill) (xs : list timed) : Prop :=
  match ps_modifier p with
  | None => exists x, xs = [x] /\ pressed_by_party b p x /\ default_for b (tm_skill x) (tm_job x) (tm_modifier x)
  | Some m => exists x y, xs = [x; y] /\ pressed_by_party b p x /\ tm_modifier x = m
      /\ pressed_by_party b p y /\ default_for b (tm_skill y) (tm_job y) (tm_modifier y)
  end.
(** A press in sequence. *)
Definition seq_for (b : builder) (name : string) (x : seq_item) : Prop :=
  sq_job x = st_job (b_stats b) /\ get_skill (b_library b) name (sq_job x) = Ok (sq_skill x)
  /\ default_for b (sq_skill x) (sq_job x) (sq_modifier x) /\ targets_named (b_default_target b) (sq_targets x).

Definition qsum (l : list Q) : Q := fold_right Qplus 0%Q l.
(** What has been dealt by instances with a snapshot at most at [ms]. *)
Definition dealt_by (l : list per_skill) (ms : Q) : Q :=
  qsum (map pk_expected (filter (fun x => Qle_bool (inject_Z (pk_snapshot x)) ms) l)).
Definition dealt (l : list per_skill) : Q := qsum (map pk_expected l).
(** The last snapshot, -1 without any. *)
Definition last_snapshot (l : list per_skill) (m : Z) : Prop :=
  (forall x, In x l -> pk_snapshot x <= m) /\ -1 <= m
  /\ (m = -1 \/ exists x, In x l /\ pk_snapshot x = m).
