(** * kill_time_estimator/kill_time_estimator.py *)

From Coq Require Import ZArith QArith List String Ascii Bool.
From Verif Require Import Base Float Strings Types Stats Library Events Rotation DamageBuild Damage.
Import ListNotations.
Open Scope string_scope.
Open Scope Z_scope.

(** [\d] on ASCII *)
Definition digit_of (c : ascii) : option N :=
  let n := N_of_ascii c in
  if ((48 <=? n) && (n <=? 57))%N then Some (n - 48)%N else None.
(** The value of the longest run of digits at the start of [s], after [acc]. *)
Fixpoint digits_value (acc : N) (s : string) : N :=
  match s with
  | EmptyString => acc
  | String c s' => match digit_of c with Some d => digits_value (10 * acc + d) s' | None => acc end
  end.
(** Greedy [(\d+)] *)
Definition match_digits (s : string) : option N :=
  match s with
  | EmptyString => None
  | String c s' => match digit_of c with Some d => Some (digits_value d s') | None => None end
  end.
(** [s] without the prefix [p] *)
Fixpoint strip_prefix (p s : string) : option string :=
  match p, s with
  | EmptyString, _ => Some s
  | String a p', String b s' => if Ascii.eqb a b then strip_prefix p' s' else None
  | String _ _, EmptyString => None
  end.
(** [re.search(r"^{} (\d+)".format(label), s)] *)
Definition search_label (label s : string) : option N :=
  match strip_prefix (label ++ " ") s with
  | Some rest => match_digits rest
  | None => None
  end.

(** Lines 15-29; [u j] is the draw of sample j. *)
Definition get_lb_damage (condition : string) (num_samples : nat) (u : nat -> Q) : res (list Q) :=
  match search_label "Mean Damage:" condition, search_label "Exact Damage:" condition with
  | None, None => Err RuntimeError
  | Some n, _ =>
      let d := fl (q (Z.of_N n)) in
      Ok (map (fun j => ffloor (fmul d (fadd (dec 95 100) (fmul (dec 1 10) (u j))))) (seq 0 num_samples))
  | None, Some n => Ok (repeat (fl (q (Z.of_N n))) num_samples)
  end.

(** Lines 31-37 for one row: a time and its damage per sample.  The condition is
    ",".join of a set; Python leaves its order open. *)
Definition lb_row (num_samples : nat) (u : nat -> Q) (name : string) (c : cond) (cells : list Q)
  : res (list Q) :=
  if contains "LB" name then get_lb_damage (join "," c) num_samples u else Ok cells.

(** The draws of one rotation: for the ranges, the samples and the LB rows. *)
Record rotation_draws := mkDraws {
  rd_range : nat -> nat -> draws; rd_sample : nat -> nat -> draws; rd_lb : nat -> nat -> Q
}.

Fixpoint mapM_i {A B} (f : nat -> A -> res B) (i : nat) (l : list A) : res (list B) :=
  match l with
  | [] => Ok []
  | a :: l' => let* b := f i a in let* bs := mapM_i f (S i) l' in Ok (b :: bs)
  end.

(** Lines 43-59: the rows (time, damage per sample) of one rotation, and the builder
    afterwards. *)
Definition rotation_rows (num_samples : nat) (b : builder) (u : rotation_draws)
  : res (builder * list (Z * list Q)) :=
  let st := b_stats b in
  let* tk := db_init st (b_library b) in
  let* b' := get_skill_timing b in
  let* (_, _, insts) := get_damage_instances tk (b_queue b') in
  let* sim := ds_init st insts in
  let* _ := run_simulator sim num_samples (rd_range u) (rd_sample u) in
  let* m := compute_damage (ds_tracker sim) num_samples (rd_sample u) in
  let* rows := mapM_i (fun i x =>
                 let '(inst, cells) := x in
                 let* cells' := lb_row num_samples (rd_lb u i) (sk_name (di_skill inst))
                                  (sm_cond (di_modifier inst)) (map (fun c => fst (fst c)) cells) in
                 Ok (di_time inst, cells')) 0 (combine (ds_instances sim) m) in
  Ok (b', rows).

(** Lines 65-67: the first index at which the cumulative damage reaches [hp];
    sums are exact (the entries are whole numbers). *)
Fixpoint first_reach (hp acc : Q) (i : nat) (col : list Q) : option nat :=
  match col with
  | [] => None
  | d :: col' =>
      let acc' := (acc + d)%Q in
      if Qle_bool hp acc' then Some i else first_reach hp acc' (S i) col'
  end.
Definition column (j : nat) (rows : list (Z * list Q)) : list Q :=
  map (fun r => nth j (snd r) 0%Q) rows.

(** Lines 61-74 on rows in [np.argsort] order: killed samples first, then one None
    per failure. *)
Definition kill_times (hp : Q) (num_samples : nat) (sorted : list (Z * list Q)) : list (option Q) :=
  let idx := map (fun j => first_reach hp 0 0 (column j sorted)) (seq 0 num_samples) in
  let hits := List.concat (map (fun o => match o with Some i => [i] | None => [] end) idx) in
  (map (fun i => Some (fdiv (q (fst (nth i sorted (0, [])))) (q 1000))) hits
   ++ repeat None (num_samples - List.length hits))%list.

(** [np.argsort] (an unstable sort) applied to the rows: [order] lists the row
    indices. *)
Definition reorder {A} (l : list A) (order : list nat) : list A :=
  List.concat (map (fun i => match nth_error l i with Some a => [a] | None => [] end) order).

(** Lines 39-76; [argsort] is NumPy's.  Without any rotation [all_damage] is None. *)
Definition estimate_kill_time (hp : Q) (rotations : list (builder * rotation_draws))
    (num_samples : nat) (argsort : list Z -> list nat) : res (list (option Q)) :=
  match rotations with
  | [] => Err TypeError
  | _ =>
      let* parts := mapM (fun bu => rotation_rows num_samples (fst bu) (snd bu)) rotations in
      let rows := List.concat (map snd parts) in
      Ok (kill_times hp num_samples (reorder rows (argsort (map fst rows))))
  end.
