(** * Printing the presses of a rotation.

    Models RotationBuilder.print_button_press_timings_as_csv, rotation_builder.py lines 1003-1011. *)

From Coq Require Import ZArith QArith List String.
From Verif Require Import Base Float Strings Types Stats Library Events Rotation Csv.
Import ListNotations.
Open Scope Z_scope.

(** Lines 1009-1011: the four cells printed for a press.  The text is not modelled: a double
    is printed so that it is read back as it was; the blanks printed after the commas, and
    the commas inside a cell of several conditions, are no part of a cell. *)
Definition printed_row (p : press) : csv_row :=
  mkCsv (fdiv (q (pr_time p)) (q 1000)) (pr_name p) (pr_job p) (pr_cond p) None.
(** Lines 1003-1011: without presses, a message and no rows. *)
Definition printed_rows (b : builder) : list csv_row := map printed_row (b_press b).
