(** * Vocabulary for data tables (C69) *)

From Coq Require Import ZArith QArith List String Bool.
From Verif Require Import Base Strings Types Lookup SpecGame Py.
Import ListNotations.
Open Scope string_scope.
Open Scope Z_scope.

(** The number a table holds for a parameter of a skill in the newest of its patches that is not
    after version [v]. *)
Definition tabled (t : data_table) (v : string) (lv : Z) (skill param : string) (e : expr) : Prop :=
  exists levels params patches k,
    In (skill, levels) t /\ In (lv, params) levels /\ In (param, patches) params /\ In (k, e) patches
    /\ str_leb (vlit_name k) v = true
    /\ forall k' e', In (k', e') patches -> str_leb (vlit_name k') v = true ->
                     str_leb (vlit_name k') (vlit_name k) = true.
(** Literals, products of them and their integer parts, exactly as one reads them. *)
Inductive written : expr -> Q -> Prop :=
| written_int z : written (EInt z) (inject_Z z)
| written_flt n d : written (EFlt n d) (n # d)
| written_mul a b x y : written a x -> written b y -> written (EBin BMul a b) (x * y)
| written_trunc a z : written a (inject_Z z) -> written (ECall "int" [a] []) (inject_Z z)
| written_eq a x y : written a x -> (x == y)%Q -> written a y.

(** Pressing [s] under [m] hits for potency [q], at once or by a follow-up that is no DoT. *)
Inductive hits_for (s : skill) (m : modifier) (q : Q) : Prop :=
| hits_itself d : get_damage_spec s m = Ok (Some d) -> potency d = q -> hits_for s m q
| hits_later fs fu d :
    get_follow_up_skills s m = Ok fs -> In fu fs -> fu_dot fu = None ->
    get_damage_spec (fu_skill fu) m = Ok (Some d) -> potency d = q -> hits_for s m q.

(** The condition each potency parameter is about. *)
Definition potency_of : list (string * cond) :=
  [("potency", []); ("potency_no_combo", ["No Combo"]); ("potency_no_pos", ["No Positional"]);
   ("potency_no_pos_no_combo", ["No Positional"; "No Combo"])].
(** Skills which ignore the table. *)
Definition off_table (j n : string) : Prop :=
  (j = "DRG" /\ In n ["Spiral Blow"; "Starcross"]) \/ (j = "WAR" /\ In n ["Vengeance"; "Damnation"])
  \/ (j = "BRD" /\ In n ["Army's Paeon"; "Mage's Ballad"; "The Wanderer's Minuet"]).
(** The part [p] of a shipped skill delivers DoT ticks through follow-up [fu]. *)
Definition dot_follow_up (p : skill) (fu : follow_up) (d : Z) : Prop :=
  In fu (follow_ups_of p) /\ fu_dot fu = Some d.
