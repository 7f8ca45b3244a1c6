(** * simulator/trackers/combo_tracker.py *)

From Coq Require Import ZArith List String Bool.
From Verif Require Import Base Strings Types Lookup.
Import ListNotations.
Open Scope string_scope.
Open Scope Z_scope.

(** game_consts.py line 10 *)
Definition COMBO_EXPIRATION_TIME : Z := 30 * 1000.
(** sim_consts.py lines 7-8 *)
Definition COMBO_SUCCESS : string := "".
Definition COMBO_FAIL : string := "No Combo".

(** Lines 6-8.  Per combo group the last successful (time, skill name);
    [None] is the pair (-inf, None). *)
Record combo_tracker := mkComboTracker {
  ct_last : zdict (option (Z * string));
  ct_breakers : zdict (list Z)
}.
Definition combo_init (breakers : zdict (list Z)) : combo_tracker := mkComboTracker [] breakers.

(** Lines 10-17; the group has an entry when this is called. *)
Definition combo_succeeded (ct : combo_tracker) (t : Z) (c : combo_spec) (m : modifier) : bool :=
  combo_auto_succeed c || sm_force_combo m
  || (match combo_actions c with [] => true | _ => false end)
  || match zget (combo_group c) (ct_last ct) with
     | Some (Some (t0, name)) =>
         (t <=? t0 + COMBO_EXPIRATION_TIME) && smem name (combo_actions c)
     | _ => false
     end.

(** Lines 19-27 *)
Definition update_combo (ct : combo_tracker) (t : Z) (c : combo_spec) (ok : bool) (name : string)
  : combo_tracker :=
  let last1 := zset (combo_group c) (if ok then Some (t, name) else None) (ct_last ct) in
  let last2 := fold_left (fun l gb =>
                 if existsb (Z.eqb (combo_group c)) (snd gb) then zset (fst gb) None l else l)
               (ct_breakers ct) last1 in
  mkComboTracker last2 (ct_breakers ct).

(** Lines 33-43: the loop body. *)
Definition combo_step (t : Z) (name : string) (m : modifier) (st : combo_tracker * bool)
    (c : combo_spec) : combo_tracker * bool :=
  let (ct, ok) := st in
  if break_all_combos_only c then (mkComboTracker [] (ct_breakers ct), ok)
  else
    let ct1 := match zget (combo_group c) (ct_last ct) with
               | None => mkComboTracker (zset (combo_group c) None (ct_last ct)) (ct_breakers ct)
               | Some _ => ct
               end in
    let b := combo_succeeded ct1 t c m in
    (update_combo ct1 t c b name, ok && b).

(** Lines 29-45 *)
Definition compile_and_update_combo (ct : combo_tracker) (t : Z) (s : skill) (m : modifier)
  : res (combo_tracker * string) :=
  let* specs := get_combo_spec s m in
  let (ct', ok) := fold_left (combo_step t (sk_name s) m) specs (ct, true) in
  Ok (ct', if ok then COMBO_SUCCESS else COMBO_FAIL).
