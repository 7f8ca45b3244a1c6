(** * Specification of the skill library (C11): what each job has, as finite maps *)

From Coq Require Import ZArith List String Bool.
From Verif Require Import Base Types.
Import ListNotations.
Open Scope string_scope.
Open Scope Z_scope.

(** The calls a user (or a job module) makes. *)
Inductive lib_op :=
| SelectJob (job : string)
| AddSkill (s : skill)
| AddResource (name : string) (s : jr_settings)
| AddBreaker (group : Z) (breaks : list Z)
| SetPriority (p : list string).

(** What the library stands for. *)
Record lib_spec := mkSpec {
  current : option string;
  selected : string -> bool;
  skill_at : string -> string -> option skill;
  resource_at : string -> string -> option jr_settings;
  breaker_at : string -> Z -> option (list Z);
  priority_of : string -> list string
}.
Definition spec_init : lib_spec :=
  mkSpec None (fun _ => false) (fun _ _ => None) (fun _ _ => None) (fun _ _ => None) (fun _ => []).

Definition upd1 {A} (f : string -> A) (k : string) (v : A) : string -> A :=
  fun x => if String.eqb x k then v else f x.
Definition upd2 {A} (f : string -> string -> option A) (j k : string) (v : A) :=
  upd1 f j (upd1 (f j) k (Some v)).
Definition updz {A} (f : string -> Z -> option A) (j : string) (k : Z) (v : A) :=
  upd1 f j (fun x => if Z.eqb x k then Some v else f j x).

(** A call, and whether it is refused. *)
Definition spec_op (a : lib_spec) (op : lib_op) : option lib_spec :=
  match op, current a with
  | SelectJob j, _ =>
      Some (mkSpec (Some j) (upd1 (selected a) j true) (skill_at a) (resource_at a) (breaker_at a) (priority_of a))
  | _, None => None
  | AddSkill s, Some j =>
      match skill_at a j (sk_name s) with
      | Some _ => None
      | None => Some (mkSpec (current a) (selected a) (upd2 (skill_at a) j (sk_name s) s)
                        (resource_at a) (breaker_at a) (priority_of a))
      end
  | AddResource n r, Some j =>
      Some (mkSpec (current a) (selected a) (skill_at a) (upd2 (resource_at a) j n r) (breaker_at a) (priority_of a))
  | AddBreaker g b, Some j =>
      Some (mkSpec (current a) (selected a) (skill_at a) (resource_at a) (updz (breaker_at a) j g b) (priority_of a))
  | SetPriority p, Some j =>
      Some (mkSpec (current a) (selected a) (skill_at a) (resource_at a) (breaker_at a) (upd1 (priority_of a) j p))
  end.
(** A refused call changes nothing. *)
Definition spec_step (a : lib_spec) (op : lib_op) : lib_spec :=
  match spec_op a op with Some a' => a' | None => a end.
Definition spec_run (ops : list lib_op) : lib_spec := fold_left spec_step ops spec_init.
