(** * Specification vocabulary for positional inference (C45) *)

From Coq Require Import ZArith QArith List String Bool.
From Verif Require Import Base Float Strings Types SpecCond.
Import ListNotations.
Open Scope string_scope.
Open Scope Z_scope.

(** The damage specs a skill has under different conditions: its own table, or else that
    of the first damaging follow-up of every condition.  [None] has no potency. *)
Inductive follow_up_variants : list (cond * list follow_up) -> list (cond * option damage_spec) -> Prop :=
| fv_nil : follow_up_variants [] []
| fv_harmless k l d t :
    (forall fu, In fu l -> sk_damage (fu_skill fu) = CNone) ->
    follow_up_variants d t -> follow_up_variants ((k, l) :: d) t
| fv_spec k pre fu post sp d t :
    (forall fu, In fu pre -> sk_damage (fu_skill fu) = CNone) -> sk_damage (fu_skill fu) = COne sp ->
    follow_up_variants d t -> follow_up_variants ((k, (pre ++ fu :: post)%list) :: d) ((k, Some sp) :: t)
| fv_table k pre fu post x d t :
    (forall fu, In fu pre -> sk_damage (fu_skill fu) = CNone) -> sk_damage (fu_skill fu) = CDict x ->
    follow_up_variants d t -> follow_up_variants ((k, (pre ++ fu :: post)%list) :: d) ((k, None) :: t).
Definition variants (s : skill) (t : list (cond * option damage_spec)) : Prop :=
  sk_damage s = CDict t
  \/ ((forall x, sk_damage s <> CDict x) /\ t <> [] /\ exists d, sk_follow_ups s = TDict d /\ follow_up_variants d t).

(** Some variant is for a missed positional. *)
Definition has_positional (s : skill) : Prop :=
  exists t k v, variants s t /\ In (k, v) t /\ In "No Positional" k.

(** The variant in force under the conditions [active]: that of the most specific key,
    or of a blank key if no key matches. *)
Definition in_force (t : list (cond * option damage_spec)) (active : list string) (sp : damage_spec) : Prop :=
  (exists k, In (k, Some sp) t /\ best_key (map fst t) active k)
  \/ ((forall k, In k (map fst t) -> ~ incl k active) /\ exists k, In (k, Some sp) t /\ same_set [""] k).

(** The bonus in percent over the potency [least], rounded toward zero.  A variant may
    state what its bonus is relative to. *)
Definition bonus_of (sp : damage_spec) (least : Q) : Z :=
  let base := match use_min_potency sp with
              | Some u => if Qeq_bool u 0 then least else u
              | None => least
              end in
  qtrunc (fdiv (fmul 100 (fsub (potency sp) base)) (potency sp)).
Definition explains (t : list (cond * option damage_spec)) (least : Q) (active : list string) (bonus : Q) : Prop :=
  exists sp, in_force t active sp /\ ~ (potency sp == 0)%Q /\ (inject_Z (bonus_of sp least) == bonus)%Q.

(** The conditions the bonus is looked up with. *)
Definition counted (s : skill) (m : modifier) (x : string) : Prop :=
  In x (sm_cond m) /\ ~ In x (sk_ignored_conditions s).
Definition active_with (s : skill) (m : modifier) (extra active : list string) : Prop :=
  NoDup active /\ forall x, In x active <-> counted s m x \/ In x extra.

(** The conditions tried, in this order. *)
Definition tried : list (list string) :=
  [[]; ["No Positional"]; ["No Combo"]; ["No Combo"; "No Positional"]].

(** What must be added to the conditions of [m]. *)
Inductive inferred (s : skill) (m : modifier) : list string -> Prop :=
| inf_none : ~ has_positional s \/ sm_bonus_percent m = None -> inferred s m []
| inf_missed bonus : has_positional s -> sm_bonus_percent m = Some bonus -> (bonus == 0)%Q ->
    inferred s m ["No Positional"]
| inf_found bonus t low least before extra after :
    has_positional s -> sm_bonus_percent m = Some bonus -> ~ (bonus == 0)%Q -> variants s t ->
    active_with s m ["No Combo"; "No Positional"] low -> in_force t low least ->
    tried = (before ++ extra :: after)%list ->
    (exists active, active_with s m extra active /\ explains t (potency least) active bonus) ->
    (forall e, In e before -> exists active, active_with s m e active /\ ~ explains t (potency least) active bonus) ->
    inferred s m extra
| inf_unexplained bonus t low least :
    has_positional s -> sm_bonus_percent m = Some bonus -> ~ (bonus == 0)%Q -> variants s t ->
    active_with s m ["No Combo"; "No Positional"] low -> in_force t low least ->
    (forall e, In e tried -> exists active, active_with s m e active /\ ~ explains t (potency least) active bonus) ->
    inferred s m [].
