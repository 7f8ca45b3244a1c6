(** * Loading the shipped jobs at every supported version and level *)

From Coq Require Import ZArith QArith List String Bool Lia.
From Verif Require Import Base BaseFacts Strings Types Lookup SpecCond CondFacts Library LibraryFacts
  SpecGame Py PyFacts GameLib GameFacts GameCheck GameCounter SafeCheck ExampleCheck SpecData DataCheck.
Import ListNotations.
Open Scope string_scope.
Open Scope Z_scope.

(** ** The jobs of one point *)

Definition load_job (r : Z) (l : lrank) (c : pclass) : res loaded_job :=
  let* cs := load_class r l c in
  let* sks := class_list cs in
  Ok (cs, sks).
Definition load_jobs (r : Z) (l : lrank) : res (list loaded_job) := mapM (load_job r l) (loaded_classes r).

Definition job_names (r : Z) : list string :=
  ["DRK"; "GNB"; "PLD"; "WAR"; "AST"; "SCH"; "SGE"; "WHM"; "BRD"; "DNC"; "MCH"; "BLM"; "RDM"; "SMN"]
  ++ (if 3 <=? r then ["PCT"] else []) ++ ["DRG"; "MNK"; "NIN"; "RPR"; "SAM"]
  ++ (if 3 <=? r then ["VPR"] else []).

(** Only BLM has resources that run out by themselves. *)
Definition lastingb (x : loaded_job) : bool :=
  forallb (fun nc => match jrs_expiry (snd nc) with Inf => true | Fin _ => false end) (cs_resources (fst x)).
Definition resources_waitb (x : loaded_job) : bool :=
  forallb (fun nc => no_wait (jrs_allowlist (snd nc))) (cs_resources (fst x)).
Definition job_ok (x : loaded_job) : bool :=
  let names := map sk_name (snd x) in
  str_nodupb names && forallb (fun n => negb (reserved n)) names
  && (match lbs_of (lj_job x) with Ok _ => true | Err _ => false end
      && Bool.eqb (lastingb x) (negb (String.eqb (lj_job x) "BLM"))
      && resources_waitb x)
  && forallb (skill_ok (lj_job x) (snd x) (map fst (cs_resources (fst x)))) (snd x).
Definition point_ok (r : Z) (l : lrank) : bool :=
  match load_jobs r l, mapM (fun nm => pot_skill r l (fst nm) (snd nm)) (pots r) with
  | Ok js, Ok ps =>
      (if list_eq_dec string_dec (map lj_job js) (job_names r) then true else false)
      && forallb job_ok js && forallb (skill_ok "" [] []) ps
      && (if list_eq_dec string_dec (map sk_name ps) (map fst (pots r)) then true else false)
      && facts_at r l js && runs_at js ps && examples_at r l js ps
      && tables_at r l (loaded_classes r) js
  | _, _ => false
  end.

Definition points : list (Z * lrank) :=
  map (fun r => (r, L90)) [1; 3; 4; 5; 6; 7; 8; 9; 10] ++ map (fun r => (r, L100)) [3; 4; 5; 6; 7; 8; 9; 10].
Definition supported_point (r : Z) (l : lrank) : bool :=
  match l with L90 => (1 <=? r) && negb (r =? 2) | L100 => 3 <=? r | _ => false end.

Lemma supported_points r l : 0 <= r <= 10 -> supported_point r l = true -> In (r, l) points.
Proof.
  intros R S.
  assert (C : r = 0 \/ r = 1 \/ r = 2 \/ r = 3 \/ r = 4 \/ r = 5 \/ r = 6 \/ r = 7 \/ r = 8 \/ r = 9 \/ r = 10) by lia.
  repeat (destruct C as [-> | C]); try subst r; destruct l; try discriminate S; cbn; tauto.
Qed.
Lemma points_ok : forallb (fun p => point_ok (fst p) (snd p)) points = true.
Proof. vm_compute. reflexivity. Qed.

(** Black Mage's Foul: what the class declares, and what the loaded skill does. *)
Definition foul_at (r : Z) (l : lrank) : bool :=
  existsb (fun c => match new_object r l c with
                    | Ok self =>
                        match lookup_var "self._job_class" self with
                        | Ok (VStr j) =>
                            if String.eqb j "BLM" then
                              match get_declared_skills r l c self with
                              | Ok ds => existsb (fun sd => match sd with
                                                            | (s, Some d) => if String.eqb (sk_name s) "Foul"
                                                                             then match sk_damage s with
                                                                                  | COne _ => negb (Qle_bool 1 d)
                                                                                              && negb (Qle_bool d 0)
                                                                                  | _ => false end
                                                                             else false
                                                            | _ => false end) ds
                              | _ => false end
                            else false
                        | _ => false end
                    | _ => false end) (loaded_classes r).
Lemma foul_ok : forallb (fun p => foul_at (fst p) (snd p)) points = true.
Proof. vm_compute. reflexivity. Qed.

(** ** The other points *)

Definition all_lranks : list lrank := [LBelow; L90; L92; L96; L100; LAbove].
Definition all_ranks : list Z := [0; 1; 2; 3; 4; 5; 6; 7; 8; 9; 10].
Lemma all_points r l : 0 <= r <= 10 -> In r all_ranks /\ In l all_lranks.
Proof.
  intros R. split; [|destruct l; cbn; tauto].
  assert (C : r = 0 \/ r = 1 \/ r = 2 \/ r = 3 \/ r = 4 \/ r = 5 \/ r = 6 \/ r = 7 \/ r = 8 \/ r = 9 \/ r = 10) by lia.
  cbn. intuition.
Qed.
(** The exception of a point that does not load. *)
Definition point_err (r : Z) (l : lrank) : err :=
  match l with L90 => if r =? 2 then Unmodelled else AssertionError | _ => AssertionError end.
Lemma other_points v lv :
  Forall (fun r => Forall (fun l => supported_point r l = false -> create_at v lv r l = Err (point_err r l)) all_lranks)
    all_ranks.
Proof.
  unfold all_ranks, all_lranks. repeat match goal with |- Forall _ _ => constructor end;
    intros S; first [discriminate S | clear S; vm_compute; reflexivity].
Qed.
Lemma unsupported_point v lv r l :
  0 <= r <= 10 -> supported_point r l = false -> create_at v lv r l = Err (point_err r l).
Proof.
  intros R S. destruct (all_points r l R) as [A B]. pose proof (other_points v lv) as O.
  rewrite Forall_forall in O. specialize (O r A). rewrite Forall_forall in O. apply O; assumption.
Qed.
