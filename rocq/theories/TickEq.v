(** * Ticks of the shipped libraries that == takes for the same are the same (C92) *)

From Coq Require Import ZArith QArith Qreduction List String Bool.
From Verif Require Import Base BaseFacts Types Lookup SpecGame SafeCheck SafeEq SpecIdle.
Import ListNotations.
Open Scope Z_scope.

Lemma redq_eq x y : redq x = true -> redq y = true -> Qeq_bool x y = true -> x = y.
Proof.
  assert (R : forall z, redq z = true -> Qred z = z).
  { intros z H. unfold redq in H. apply andb_true_iff in H as [H K]. apply Z.eqb_eq in H. apply Pos.eqb_eq in K. destruct (Qred z), z. cbn in *. congruence. }
  intros X Y E. apply Qeq_bool_iff, Qred_complete in E. rewrite (R x X), (R y Y) in E. exact E.
Qed.
Lemma redo_eq x y : redo x = true -> redo y = true -> opt_eqb Qeq_bool x y = true -> x = y.
Proof. destruct x, y; cbn; try discriminate; try reflexivity. intros X Y E. f_equal. apply redq_eq; assumption. Qed.
Lemma strings_eq l l' : list_eqb String.eqb l l' = true -> l = l'.
Proof. apply list_eqb_spec. apply String.eqb_eq. Qed.

Lemma tick_damage_eq d d' :
  redq (potency d) && (redo (trait_damage_mult_override d) && (redo (pet_job_mod_override d) && (redq (pet_scalar d) && (redo (use_min_potency d) && redq (single_damage_mult d))))) = true ->
  redq (potency d') && (redo (trait_damage_mult_override d') && (redo (pet_job_mod_override d') && (redq (pet_scalar d') && (redo (use_min_potency d') && redq (single_damage_mult d'))))) = true ->
  damage_eqb d d' = true -> d = d'.
Proof.
  unfold damage_eqb. rewrite !andb_true_iff. intros (A1 & A2 & A3 & A4 & A5 & A6) (B1 & B2 & B3 & B4 & B5 & B6) ((((((((E1 & E2) & E3) & E4) & E5) & E6) & E7) & E8) & E9).
  destruct d as [p c f1 f2 o1 o2 ps o3 sm], d' as [p' c' f1' f2' o1' o2' ps' o3' sm']. cbn in *. f_equal;
    try (apply redq_eq; assumption); try (apply redo_eq; assumption); [destruct c, c'|destruct f1, f1'|destruct f2, f2']; try discriminate; reflexivity.
Qed.
Lemma timing_eq t t' : timing_eqb t t' = true -> t = t'.
Proof.
  unfold timing_eqb. rewrite !andb_true_iff. intros (((((E1 & E2) & E3) & E4) & E5) & E6). apply Z.eqb_eq in E1, E2, E3, E4. apply Bool.eqb_prop in E5, E6. destruct t, t'. cbn in *. congruence.
Qed.

Lemma tick_eq s s' : tick_plain s = true -> tick_plain s' = true -> skill_eqb s s' = true -> s = s'.
Proof.
  destruct s as [n d t b db ch jr co de g ig sn fu oc], s' as [n' d' t' b' db' ch' jr' co' de' g' ig' sn' fu' oc']. unfold tick_plain.
  cbn [sk_damage sk_timing sk_buff sk_debuff sk_channeling sk_job_resource sk_combo sk_follow_ups].
  intros A B. apply andb_true_iff in A as (A1 & A). apply andb_true_iff in A as (A2 & A). apply andb_true_iff in A as (A3 & A4). apply andb_true_iff in B as (B1 & B). apply andb_true_iff in B as (B2 & B). apply andb_true_iff in B as (B3 & B4). cbn [skill_eqb sk_name sk_damage sk_timing sk_buff sk_debuff sk_channeling sk_job_resource sk_combo sk_denylist sk_is_GCD sk_ignored_conditions sk_job_resources_snapshot sk_follow_ups sk_off_class_default].
  rewrite !andb_true_iff. intros (((((((((((((E1 & E2) & E3) & E4) & E5) & E6) & E7) & E8) & E9) & E10) & E11) & E12) & E13) & E14).
  apply String.eqb_eq in E1, E14. apply strings_eq in E9, E11. apply Bool.eqb_prop in E10, E12. subst.
  assert (D : d = d').
  { destruct d as [|d|]; try discriminate. destruct d' as [|d'|]; try discriminate. f_equal. apply tick_damage_eq; assumption. }
  assert (T : t = t' /\ ch = ch').
  { destruct t, t'; try discriminate; destruct ch, ch'; try discriminate; split; try reflexivity. f_equal. apply timing_eq, E3. }
  assert (O : b = b' /\ db = db') by (destruct b, b', db, db'; try discriminate; split; reflexivity).
  assert (F : fu = fu' /\ co = co' /\ jr = jr').
  { destruct fu as [[|]|], fu' as [[|]|]; try discriminate; destruct co as [[|]|], co' as [[|]|]; try discriminate; destruct jr as [[|]|], jr' as [[|]|]; try discriminate; repeat split. }
  destruct T as (-> & ->), O as (-> & ->), F as (-> & -> & ->). rewrite D. reflexivity.
Qed.
Lemma tick_self s : tick_plain s = true -> skill_eqb s s = true.
Proof.
  destruct s as [n d t b db ch jr co de g ig sn fu oc]. unfold tick_plain.
  cbn [sk_damage sk_timing sk_buff sk_debuff sk_channeling sk_job_resource sk_combo sk_follow_ups]. intros A. apply andb_true_iff in A as (A1 & A). apply andb_true_iff in A as (A2 & A). apply andb_true_iff in A as (A3 & A4).
  cbn [skill_eqb sk_name sk_damage sk_timing sk_buff sk_debuff sk_channeling sk_job_resource sk_combo sk_denylist sk_is_GCD sk_ignored_conditions sk_job_resources_snapshot sk_follow_ups sk_off_class_default].
  destruct d as [|d|]; try discriminate. destruct b, db; try discriminate. destruct fu as [[|]|]; try discriminate. destruct co as [[|]|]; try discriminate. destruct jr as [[|]|]; try discriminate.
  assert (T : cspec_eqb timing_eqb t t = true) by (destruct t; try discriminate; [reflexivity|apply timing_eqb_self]).
  assert (C : cspec_eqb channeling_eqb ch ch = true) by (destruct t, ch; try discriminate; reflexivity).
  rewrite T, C, !String.eqb_refl, !strings_eqb_self, !Bool.eqb_reflx. cbn [cspec_eqb tspec_eqb list_eqb]. rewrite damage_eqb_self. reflexivity.
Qed.

Lemma tick_follow_up f f' : tick_plain (fu_skill f) = true -> tick_plain (fu_skill f') = true -> (follow_up_eqb f f' = true <-> f = f').
Proof.
  intros P P'. unfold follow_up_eqb, fu_eqb. split.
  - rewrite !andb_true_iff. intros (((((E1 & E2) & E3) & E4) & E5) & E6). apply tick_eq in E1; [|assumption|assumption]. apply Z.eqb_eq in E2. apply Bool.eqb_prop in E3, E4, E6.
    destruct f as [s de sb sd dt pr], f' as [s' de' sb' sd' dt' pr']. cbn in *. subst. f_equal. destruct dt, dt'; try discriminate; [f_equal; apply Z.eqb_eq, E5|reflexivity].
  - intros <-. rewrite (tick_self _ P), Z.eqb_refl, !Bool.eqb_reflx, opt_eqb_self by apply Z.eqb_refl. reflexivity.
Qed.
Lemma tick_grants s : tick_plain s = true -> grants_nothing s.
Proof.
  unfold tick_plain. intros K m. apply andb_true_iff in K as (K1 & K). apply andb_true_iff in K as (K2 & K). apply andb_true_iff in K as (K3 & K4).
  unfold get_buff_spec, get_debuff_spec, get_follow_up_skills, get_combo_spec, get_job_resource_spec.
  destruct (sk_buff s); try discriminate. destruct (sk_debuff s); try discriminate. destruct (sk_follow_ups s) as [[|]|]; try discriminate.
  destruct (sk_combo s) as [[|]|]; try discriminate. destruct (sk_job_resource s) as [[|]|]; try discriminate. repeat split.
Qed.
