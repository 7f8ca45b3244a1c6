(** * C69: shipped skills agree with the data tables of their job *)

From Coq Require Import ZArith QArith List String Bool.
From Verif Require Import Base Strings Float Types Lookup Library SpecGame SpecData Py Data_DRG GameLib GameFacts GameCheck GamePoints GameLoad GameProps DataFacts.
Import ListNotations.
Open Scope string_scope.
Open Scope Z_scope.

(** Pressing a skill under a condition hits for the number in its job's table, whatever the patch. *)
Theorem C69_potency_partial : forall v lv lib c cs own s param m z,
  create_skill_library v lv = Ok lib -> In c (loaded_classes (ver_rank v)) ->
  load_class (ver_rank v) (lev_rank lv) c = Ok cs -> cs_skills cs = Ok own -> In s own ->
  tabled (c_data c) v lv (sk_name s) param (EInt z) -> In (param, m) potency_of -> ~ off_table (cs_job cs) (sk_name s) ->
  (exists q, hits_for s (cond_modifier m) q) /\ forall q, hits_for s (cond_modifier m) q -> (q == inject_Z z)%Q.
Proof. exact shipped_potency. Qed.
Print Assumptions C69_potency_partial.

(** Buffs and debuffs last as long, and multiply damage by as much, as the table says. *)
Theorem C69_effects : forall v lv lib c cs own s p e ef,
  create_skill_library v lv = Ok lib -> In c (loaded_classes (ver_rank v)) ->
  load_class (ver_rank v) (lev_rank lv) c = Ok cs -> cs_skills cs = Ok own -> In s own ->
  part_of p s -> In ef (effects_of p) ->
  (tabled (c_data c) v lv (sk_name p) "duration" e -> exists z, duration ef = Fin z /\ written e (inject_Z z))
  /\ (tabled (c_data c) v lv (sk_name p) "damage_mult" e -> exists n d, e = EFlt n d /\ (damage_mult ef == dec n d)%Q).
Proof. exact shipped_effects. Qed.
Print Assumptions C69_effects.

(** DoTs tick for as long, and as hard, as the table says. *)
Theorem C69_dots_partial : forall v lv lib c cs own s p fu d,
  create_skill_library v lv = Ok lib -> In c (loaded_classes (ver_rank v)) ->
  load_class (ver_rank v) (lev_rank lv) c = Ok cs -> cs_skills cs = Ok own -> In s own ->
  sk_name s <> "Eukrasian Dyskrasia" -> part_of p s -> dot_follow_up p fu d ->
  (forall e, tabled (c_data c) v lv (sk_name (fu_skill fu)) "duration" e -> written e (inject_Z d))
  /\ (forall z, tabled (c_data c) v lv (sk_name (fu_skill fu)) "potency" (EInt z) ->
       exists t, get_damage_spec (fu_skill fu) (cond_modifier []) = Ok (Some t) /\ (potency t == inject_Z z)%Q).
Proof. exact shipped_dots. Qed.
Print Assumptions C69_dots_partial.

(** Dragoon's class loads at version 7.05, and these are two entries of its table. *)
Example C69_case : exists lib cs own,
  create_skill_library "7.05" 100 = Ok lib /\ In drg_class (loaded_classes (ver_rank "7.05"))
  /\ load_class (ver_rank "7.05") (lev_rank 100) drg_class = Ok cs /\ class_list cs = Ok own
  /\ tabled (c_data drg_class) "7.05" 100 "Chaotic Spring" "potency_no_combo" (EInt 180)
  /\ tabled (c_data drg_class) "7.05" 100 "Chaotic Spring (dot)" "duration" (EBin BMul (EInt 24) (EInt 1000)).
Proof. exact drg_table_case. Qed.

(** Dragoon's Spiral Blow and Starcross have their first potency written into the skill, so that
    the table's later numbers do nothing. *)
Theorem C69_spiral_blow_refuted : forall v lib,
  create_skill_library v 100 = Ok lib ->
  tabled (c_data drg_class) v 100 "Spiral Blow" "potency" (EInt 340)
  /\ exists s, get_skill lib "Spiral Blow" "DRG" = Ok s /\ (exists q, hits_for s (cond_modifier []) q)
     /\ forall q, hits_for s (cond_modifier []) q -> (q == 300)%Q.
Proof. exact spiral_blow. Qed.
Print Assumptions C69_spiral_blow_refuted.

Theorem C69_starcross_refuted : forall v lib,
  create_skill_library v 100 = Ok lib -> str_leb "7.1" v = true ->
  tabled (c_data drg_class) v 100 "Starcross" "potency" (EInt 1000)
  /\ exists s, get_skill lib "Starcross" "DRG" = Ok s /\ (exists q, hits_for s (cond_modifier []) q)
     /\ forall q, hits_for s (cond_modifier []) q -> (q == 700)%Q.
Proof. exact starcross. Qed.
Print Assumptions C69_starcross_refuted.

(** Technical Finish stands for four steps, but hits for 100 potency less than Quadruple Technical Finish. *)
Theorem C69_technical_finish_refuted : forall v lib,
  create_skill_library v 100 = Ok lib ->
  exists s q, get_skill lib "Technical Finish" "DNC" = Ok s /\ get_skill lib "Quadruple Technical Finish" "DNC" = Ok q
    /\ (exists x, hits_for s (cond_modifier []) x) /\ (exists y, hits_for q (cond_modifier []) y)
    /\ forall x y, hits_for s (cond_modifier []) x -> hits_for q (cond_modifier []) y -> (x + 100 == y)%Q.
Proof. exact technical_finish. Qed.
Print Assumptions C69_technical_finish_refuted.
