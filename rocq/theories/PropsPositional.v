(** * C45: inferring a missed positional from a logged bonus *)

From Coq Require Import ZArith QArith List String Bool.
From Verif Require Import Base Float Strings Types Lookup SpecCond CondFacts SpecPositional PositionalFacts Fixtures.
Import ListNotations.
Open Scope string_scope.
Open Scope Z_scope.

(** Conditions are only added: exactly the missing ones of the first candidate that
    explains the logged bonus. *)
Theorem C45_inferred s m m' :
  NoDup (sm_cond m) -> (forall x, In x (sm_cond m) -> plain_name x) ->
  (forall t, variants s t -> distinct_sets (map fst t)) ->
  add_positional s m = Ok m' ->
  m' = set_cond m (sm_cond m') /\ exists extra, inferred s m extra /\ same_set (sm_cond m') (sm_cond m ++ extra)%list.
Proof. exact (positional_inferred s m m'). Qed.
Print Assumptions C45_inferred.

(** Whatever the names of the conditions, none is removed and nothing else changes. *)
Theorem C45_keeps s m m' : add_positional s m = Ok m' ->
  m' = set_cond m (sm_cond m') /\ incl (sm_cond m) (sm_cond m').
Proof. exact (positional_keeps s m m'). Qed.
Print Assumptions C45_keeps.

(** A table with a default variant, whose variants all do damage, always has an answer. *)
Theorem C45_total s m :
  NoDup (sm_cond m) ->
  (forall t, variants s t -> distinct_sets (map fst t) /\ (exists v, In ([], v) t)
      /\ forall k v, In (k, v) t -> exists sp, v = Some sp /\ ~ (potency sp == 0)%Q) ->
  exists m', add_positional s m = Ok m'.
Proof. exact (positional_total s m). Qed.
Print Assumptions C45_total.

(** ** Examples *)

(** Full potency is 420; less without the combo, the positional or both. *)
Definition ex_table : list (cond * option damage_spec) :=
  [([], Some (fx_damage 420)); (["No Combo"], Some (fx_damage 220)); (["No Positional"], Some (fx_damage 360));
   (["No Combo"; "No Positional"], Some (fx_damage 160))].
Definition ex_flank : skill := fx_skill "Flank" (CDict ex_table) (fx_timing 0 650 500) true [].
Definition logged (cs : cond) (bonus : Z) : modifier := mkModifier F_DEFAULT F_DEFAULT cs false false false (Some (inject_Z bonus)).
Example ex_variants t : variants ex_flank t -> t = ex_table.
Proof. intros [E|(H & _)]; [injection E as <-; reflexivity | exfalso; apply (H ex_table); reflexivity]. Qed.
Example ex_well_formed t : variants ex_flank t -> distinct_sets (map fst t) /\ (exists v, In ([], v) t)
  /\ forall k v, In (k, v) t -> exists sp, v = Some sp /\ ~ (potency sp == 0)%Q.
Proof.
  intros V. rewrite (ex_variants t V). split; [apply distinct_sets_dec; vm_compute; reflexivity|].
  split; [eexists; left; reflexivity|].
  intros k v [E|[E|[E|[E|[]]]]]; injection E as <- <-; eexists; (split; [reflexivity | vm_compute; discriminate]).
Qed.
Example ex_shown :
  map (fun b => match add_positional ex_flank (logged ["Buffed"] b) with Ok m => Some (sm_cond m) | Err _ => None end)
    [61; 55; 27; 0; 99]
  = [Some ["Buffed"]; Some ["Buffed"; "No Positional"]; Some ["Buffed"; "No Combo"]; Some ["Buffed"; "No Positional"];
     Some ["Buffed"]].
Proof. vm_compute. reflexivity. Qed.
Example ex_unlogged : add_positional ex_flank (modifier_with "Buffed") = Ok (modifier_with "Buffed").
Proof. vm_compute. reflexivity. Qed.
Example ex_plain : forall x, In x (sm_cond (logged ["Buffed"] 61)) -> plain_name x.
Proof.
  intros x [<-|[]]. split; [intros H; vm_compute in H; repeat (destruct H as [H|H]; [discriminate H|]); destruct H|].
  split; [apply trimmed_strip; vm_compute; reflexivity | discriminate].
Qed.
