(** * Deciding that the shipped example rotations can be built and run (C65) *)

From Coq Require Import ZArith QArith List String Bool Lia.
From Verif Require Import Base BaseFacts Strings Types Lookup Stats Library Rotation SpecGame Py GameLib GameFacts GameCheck
  Examples Data_Examples.
Import ListNotations.
Open Scope string_scope.
Open Scope Z_scope.

Fixpoint str_nodupb (l : list string) : bool :=
  match l with [] => true | x :: l => negb (smem x l) && str_nodupb l end.
Lemma str_nodupb_sound l : str_nodupb l = true -> NoDup l.
Proof.
  induction l as [|x l IH]; cbn; [constructor|]. rewrite andb_true_iff, negb_true_iff. intros [N H].
  constructor; [|auto]. intros I. apply smem_spec in I. congruence.
Qed.

(** The library of a point. *)
Definition lbs_list (j : string) : list skill := match lbs_of j with Ok l => l | Err _ => [] end.
Definition generic_list (ps : list skill) : list skill := (ps ++ [death_skill; weakness_skill; brink_skill] ++ wait_skills)%list.
Definition point_lib v lv js ps : library :=
  lib_of v lv js (fun j => (generic_list ps ++ lbs_list j)%list) (last_job js None).

(** ** Conditions of C64 that can be checked *)

Definition no_queen (s : skill) : bool := all_parts 6 (fun p => negb (String.eqb (sk_name p) "Automaton Queen")) s.
Definition only_clears (s : skill) : bool := all_parts 6 (fun p => forallb jr_clear_all (changes_of p)) s.
Definition hits (s : skill) : bool := match sk_damage s with COne _ => true | _ => false end.
Definition safe_builder (b : builder) : bool :=
  smem (st_job (b_stats b)) (get_jobs (b_library b))
  && forallb (fun x => no_queen (sq_skill x) && str_nodupb (sm_cond (sq_modifier x))) (b_sequence b)
  && forallb (fun x => no_queen (tm_skill x) && only_clears (tm_skill x) && str_nodupb (sm_cond (tm_modifier x))) (b_timed b)
  && str_nodupb (map (fun x => sk_name (tm_skill x)) (b_timed b))
  && (if b_autos b
      then existsb hits (map sq_skill (b_sequence b) ++ map tm_skill (b_timed b))%list
           && Qle_bool 1 (st_weapon_delay (b_stats b))
           && negb (String.eqb (st_job (b_stats b)) "VPR" && (ver_rank (lib_version (b_library b)) =? 6))
      else true)
  && match b_windows b with
     | WTuple l => forallb (fun w => Qeq_bool (w_end w) (inject_Z (Float.qtrunc (w_end w)))) l
     | WDict _ => false
     end.
Definition runs (b : builder) : bool := match get_skill_timing b with Ok _ => true | Err _ => false end.

(** ** The examples of a point *)

(** A version for each position. *)
Definition version_of (r : Z) : string :=
  match zget r [(1, "6.55"); (3, "7.0"); (4, "7.005"); (5, "7.01"); (6, "7.03"); (7, "7.05"); (8, "7.07"); (9, "7.1"); (10, "7.2")] with
  | Some v => v | None => "" end.
Definition level_of (l : lrank) : Z := match l with L90 => 90 | L100 => 100 | _ => 0 end.

Definition examples_at (r : Z) (l : lrank) (js : list loaded_job) (ps : list skill) : bool :=
  match get_example_rotations example_files (point_lib (version_of r) (level_of l) js ps) with
  | Ok d => forallb (fun nb => if safe_builder (snd nb) then true else runs (snd nb)) d
  | Err _ => false
  end.
