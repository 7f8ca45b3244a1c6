(** * simulator/trackers/job_resource_tracker.py *)

From Coq Require Import ZArith List String Bool.
From Verif Require Import Base Strings Types Lookup.
Import ListNotations.
Open Scope string_scope.
Open Scope Z_scope.

(** (start_time, end_time, spec), lines 21-23 and 33-35 *)
Record jr_entry := mkJrEntry { je_start : Z; je_end : ext; je_spec : jr_spec }.

(** Lines 10-16: per resource its settings and its timeline. *)
Definition jr_tracker := dict (jr_settings * list jr_entry).
Definition jr_init (settings : dict jr_settings) : jr_tracker :=
  map (fun kv => (fst kv, (snd kv, []))) settings.

(** Lines 18-23; JobResourceSpec's defaults are duration=inf,
    refreshes_duration_of_last_gained=False (job_resource_spec.py lines 6-17). *)
Definition clear_entry (t : Z) (name : string) : jr_entry :=
  mkJrEntry t Inf (mkJr name ChangeNegInf Inf false false).
Definition clear_resources (t : Z) (tr : jr_tracker) : jr_tracker :=
  map (fun kv => (fst kv, (fst (snd kv), (snd (snd kv) ++ [clear_entry t (fst kv)])%list))) tr.

(** Lines 26-40 for one spec. *)
Definition add_one_resource (t : Z) (tr : jr_tracker) (sp : jr_spec) : res jr_tracker :=
  if jr_clear_all sp then Ok (clear_resources t tr)
  else
    let* (cfg, l) := of_option KeyError (dget (jr_name sp) tr) in
    Ok (dset (jr_name sp)
          (cfg, (l ++ [mkJrEntry t (ext_add (Fin t) (jr_duration sp)) sp])%list) tr).

(** Lines 25-40 *)
Definition add_resource (tr : jr_tracker) (t : Z) (s : skill) (m : modifier) : res jr_tracker :=
  let* specs := get_job_resource_spec s m in
  foldM (add_one_resource t) specs tr.

(** Lines 78-80 *)
Definition apply_change (mx total : Z) (c : change) : Z :=
  match c with
  | Change z => Z.max 0 (Z.min (total + z) mx)
  | ChangeNegInf => 0
  end.

(** Lines 64-80: the loop body, on (total_resource, last_refresh_time). *)
Definition resource_step (cfg : jr_settings) (t : Z) (st : Z * option Z) (e : jr_entry)
  : Z * option Z :=
  let (total, last) := st in
  let last1 := match last with None => je_start e | Some r => r end in
  let total1 :=
    if z_gt_ext (je_start e) (ext_add (Fin last1) (jrs_expiry cfg)) then 0 else total in
  let last2 := if jr_refreshes (je_spec e) then je_start e else last1 in
  if (t <? je_start e) || z_gt_ext t (je_end e) then (total1, Some last2)
  else (apply_change (jrs_max cfg) total1 (jr_change (je_spec e)), Some last2).

(** Lines 56-87: the amount of one resource; [if last_refresh_time and ...]
    treats a refresh at time 0 like no refresh. *)
Definition resource_total (cfg : jr_settings) (t : Z) (l : list jr_entry) : Z :=
  let (total, last) := fold_left (resource_step cfg t) l (0, None) in
  match last with
  | None => total
  | Some r =>
      if negb (r =? 0) && z_gt_ext t (ext_add (Fin r) (jrs_expiry cfg)) then 0 else total
  end.

(** Lines 89-93 *)
Definition resource_condition (cfg : jr_settings) (name : string) (total : Z) : list string :=
  if 0 <? total then
    [if jrs_add_number cfg then string_of_Z total ++ " " ++ name else name]
  else [].

(** Lines 46-94: sorts the timelines in place, so the tracker is returned too. *)
Definition compile_job_resources (tr : jr_tracker) (t : Z) (skill_name : string)
  : jr_tracker * string :=
  let tr' := map (fun kv =>
               let '(name, (cfg, l)) := kv in
               if smem skill_name (jrs_allowlist cfg)
               then (name, (cfg, sort_by je_start l)) else kv) tr in
  (tr',
   join ", " (flat_map (fun kv =>
     let '(name, (cfg, l)) := kv in
     if smem skill_name (jrs_allowlist cfg)
     then resource_condition cfg name (resource_total cfg t l) else []) tr')).
