(** * C11: the skill library *)

From Coq Require Import ZArith List String Bool.
From Verif Require Import Base Strings Types Library SpecLibrary LibraryFacts Fixtures.
Import ListNotations.
Open Scope string_scope.
Open Scope Z_scope.

(** After any sequence of calls every query agrees with the per-job finite maps of
    SpecLibrary.v. *)
Theorem C11_library_refines_maps : forall version level ops name job,
  let l := lib_run version level ops in let a := spec_run ops in
  get_skill l name job = of_option KeyError (skill_at a job name)
  /\ has_skill l name job
     = (if selected a job then Ok (match skill_at a job name with Some _ => true | None => false end)
        else Err KeyError)
  /\ has_job_class l job = selected a job
  /\ (In job (get_jobs l) <-> selected a job = true)
  /\ get_status_effect_priority l job = (if selected a job then Ok (priority_of a job) else Err KeyError)
  /\ (forall d, get_all_resource_settings l job = Ok d -> forall n, dget n d = resource_at a job n)
  /\ (forall d, get_all_combo_breakers l job = Ok d -> forall g, zget g d = breaker_at a job g)
  /\ is_ok (get_all_resource_settings l job) = selected a job
  /\ is_ok (get_all_combo_breakers l job) = selected a job.
Proof. exact library_lookup. Qed.
Print Assumptions C11_library_refines_maps.

(** A call raises exactly when the specification refuses it (no job selected, or a
    skill name already taken); refused calls change nothing ([lib_step], [spec_step]). *)
Theorem C11_refusals : forall version level ops op,
  is_ok (lib_apply (lib_run version level ops) op)
  = match spec_op (spec_run ops) op with Some _ => true | None => false end.
Proof. exact library_refusal. Qed.
Print Assumptions C11_refusals.

Theorem C11_duplicate_rejected : forall version level ops j s s',
  current (spec_run ops) = Some j -> skill_at (spec_run ops) j (sk_name s) = Some s' ->
  add_skill (lib_run version level ops) s = Err RuntimeError.
Proof. exact library_duplicate. Qed.
Print Assumptions C11_duplicate_rejected.

(** Loading a job class is such a sequence of calls.  If collecting the job's skills
    raises ValueError, all its skills are silently missing. *)
Theorem C11_load_is_calls : forall l cs sks,
  cs_skills cs = Ok sks \/ (cs_skills cs = Err ValueError /\ sks = []) ->
  add_all_skills_from l cs = foldM lib_apply (class_ops cs sks) l.
Proof. exact add_all_skills_ops. Qed.
Print Assumptions C11_load_is_calls.

(** ** Examples *)

Definition ex_ops : list lib_op :=
  [AddSkill fx_cast; SelectJob "A"; AddSkill fx_hit; SelectJob "B"; AddSkill fx_hit; AddSkill fx_hit;
   SelectJob "A"; AddSkill fx_ogcd; SetPriority ["x"]].
Example ex_run :
  let l := lib_run "7.0" 100 ex_ops in
  (is_ok (get_skill l "Hit" "A"), is_ok (get_skill l "Quick" "A"), is_ok (get_skill l "Quick" "B"),
   get_jobs l, is_ok (add_skill l fx_hit)) = (true, true, false, ["A"; "B"], false).
Proof. vm_compute. reflexivity. Qed.
Example ex_dup : current (spec_run ex_ops) = Some "A" /\ skill_at (spec_run ex_ops) "A" "Hit" = Some fx_hit.
Proof. vm_compute. auto. Qed.
