(** * Condition strings.

    simulator/utils.py canonicalize_condition (lines 39-44) and the string
    operations it and its callers use ([str.split(",")], [str.strip()],
    [", ".join]).  Simplification: strings are byte strings; [strip] removes
    the ASCII whitespace characters Python removes (9-13, 28-32). *)

From Coq Require Import ZArith List String Ascii Bool.
From Verif Require Import Base.
Import ListNotations.
Open Scope string_scope.

Definition comma : ascii := ","%char.

(** ASCII characters for which [str.isspace()] holds. *)
Definition is_space (c : ascii) : bool :=
  let n := nat_of_ascii c in
  ((9 <=? n) && (n <=? 13) || (28 <=? n) && (n <=? 32))%nat.

(** [s.split(",")]: always at least one part. *)
Fixpoint split_comma (s : string) : list string :=
  match s with
  | EmptyString => [""]
  | String c s' =>
      if Ascii.eqb c comma then "" :: split_comma s'
      else
        match split_comma s' with
        | [] => [String c ""]
        | p :: ps => String c p :: ps
        end
  end.

Fixpoint lstrip (s : string) : string :=
  match s with
  | EmptyString => ""
  | String c s' => if is_space c then lstrip s' else s
  end.

(** Remove trailing whitespace. *)
Fixpoint rstrip (s : string) : string :=
  match s with
  | EmptyString => ""
  | String c s' =>
      match rstrip s' with
      | EmptyString => if is_space c then "" else String c ""
      | t => String c t
      end
  end.

Definition strip (s : string) : string := rstrip (lstrip s).

(** [sep.join(l)] *)
Fixpoint join (sep : string) (l : list string) : string :=
  match l with
  | [] => ""
  | [x] => x
  | x :: l' => x ++ sep ++ join sep l'
  end.

(** A set of conditions: duplicate-free list. *)
Definition cond := list string.

(** [set(l)] *)
Definition set_of (l : list string) : cond := fold_left (fun acc x => sadd x acc) l [].

(** [a | b], [a.update(b)] *)
Definition set_union (a b : cond) : cond := fold_left (fun acc x => sadd x acc) b a.

(** utils.py lines 39-44 *)
Definition canonicalize (s : string) : cond :=
  match s with
  | EmptyString => []
  | _ => set_of (map strip (split_comma s))
  end.

(** [a.issubset(b)] *)
Definition subset (a b : cond) : bool := forallb (fun x => smem x b) a.
(** set equality *)
Definition cond_eqb (a b : cond) : bool := subset a b && subset b a.

(** Python tuple of targets from a target string:
    rotation_builder.py line 130. *)
Definition split_targets (s : string) : list string := map strip (split_comma s).

(** [x in s] for strings (channeling_tracker.py line 42, kill_time_estimator.py line 34) *)
Fixpoint contains (x s : string) : bool :=
  prefix x s ||
  match s with
  | EmptyString => false
  | String _ s' => contains x s'
  end.

(** Decimal rendering of an integer: [str(n)]. *)
Fixpoint digits_rev (fuel : nat) (n : N) : string :=
  match fuel with
  | O => ""
  | S f =>
      let d := String (ascii_of_N (48 + N.modulo n 10)) "" in
      let q := N.div n 10 in
      match q with
      | N0 => d
      | _ => digits_rev f q ++ d
      end
  end.
Definition string_of_N (n : N) : string := digits_rev (S (N.to_nat (N.log2 n))) n.
Definition string_of_Z (z : Z) : string :=
  match z with
  | Zneg p => "-" ++ string_of_N (Npos p)
  | _ => string_of_N (Z.to_N z)
  end.
