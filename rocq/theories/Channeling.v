(** * simulator/trackers/channeling_tracker.py *)

From Coq Require Import ZArith List String Bool.
From Verif Require Import Base Strings Types Lookup.
Import ListNotations.
Open Scope string_scope.
Open Scope Z_scope.

(** sim_consts.py line 12 *)
Definition WAIT_PREFIX : string := "Wait".

(** Lines 6-14.  [ch_current] is (start time, spec, uses left) while channeling. *)
Record ch_tracker := mkCh {
  ch_windows : list (Z * ext);
  ch_current : option (Z * channeling_spec * ext);
  ch_final : bool
}.
Definition ch_init : ch_tracker := mkCh [] None false.

(** Lines 32-34 with the end time of lines 48-51 and 62-65. *)
Definition end_channeling (st : ch_tracker) (start : Z) (sp : channeling_spec) (t : Z) : ch_tracker :=
  mkCh (ch_windows st ++ [(start, ext_min (ext_add (Fin start) (ch_duration sp)) (Fin t))])%list None
    (ch_final st).

(** Lines 24-30 *)
Definition start_channeling (st : ch_tracker) (t : Z) (sp : channeling_spec) : res ch_tracker :=
  match ch_current st with
  | Some _ => Err AssertionError
  | None => Ok (mkCh (ch_windows st) (Some (t, sp, ch_num_uses sp)) (ch_final st))
  end.

(** Lines 36-66 *)
Definition process_channeling (st : ch_tracker) (t : Z) (s : skill) (m : modifier) : res ch_tracker :=
  if ch_final st then Err AssertionError
  else if contains WAIT_PREFIX (sk_name s) then Ok st
  else
    let* sp := get_channeling_spec s m in
    match sp, ch_current st with
    | Some c, Some (start, cur, _) => start_channeling (end_channeling st start cur t) t c
    | Some c, None => start_channeling st t c
    | None, Some (start, cur, uses) =>
        if smem (sk_name s) (ch_allowlist cur) then
          let uses' := ext_subz uses 1 in
          if ext_pos uses' then Ok (mkCh (ch_windows st) (Some (start, cur, uses')) (ch_final st))
          else Ok (end_channeling st start cur t)
        else Ok (end_channeling st start cur t)
    | None, None => Ok st
    end.

(** Comparison of (start, end) tuples. *)
Definition ext_ltb (a b : ext) : bool :=
  match a, b with
  | Fin x, Fin y => x <? y
  | Fin _, Inf => true
  | Inf, _ => false
  end.
Definition window_ltb (a b : Z * ext) : bool :=
  (fst a <? fst b) || (fst a =? fst b) && ext_ltb (snd a) (snd b).

(** Lines 68-78 *)
Definition ch_finalize (st : ch_tracker) : res ch_tracker :=
  if ch_final st then Err AssertionError
  else
    let w := match ch_current st with
             | Some (start, sp, _) => (ch_windows st ++ [(start, ext_add (Fin start) (ch_duration sp))])%list
             | None => ch_windows st
             end in
    Ok (mkCh (sort_lt window_ltb w) None true).

(** Lines 80-84 *)
Definition get_channeling_windows (st : ch_tracker) : res (list (Z * ext)) :=
  if ch_final st then Ok (ch_windows st) else Err AssertionError.
