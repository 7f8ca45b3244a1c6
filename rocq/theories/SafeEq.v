(** * A skill equals itself (Skill.__eq__ compares tables by key) *)

From Coq Require Import ZArith QArith List String Bool Lia.
From Verif Require Import Base BaseFacts Strings Types Lookup SpecCond CondFacts SpecGame GameCheck.
Import ListNotations.
Open Scope Z_scope.

Lemma Qeq_bool_self a : Qeq_bool a a = true.
Proof. apply Qeq_bool_iff. reflexivity. Qed.
Lemma ext_eqb_self e : ext_eqb e e = true.
Proof. destruct e; cbn; [apply Z.eqb_refl | reflexivity]. Qed.
Lemma forced_eqb_self f : forced_eqb f f = true.
Proof. destruct f; reflexivity. Qed.
Lemma dclass_eqb_self c : dclass_eqb c c = true.
Proof. destruct c; reflexivity. Qed.
Lemma opt_eqb_self {A} (eqb : A -> A -> bool) o : (forall a, eqb a a = true) -> opt_eqb eqb o o = true.
Proof. intros H. destruct o; cbn; auto. Qed.
Lemma list_eqb_self {A} (eqb : A -> A -> bool) l : (forall a, In a l -> eqb a a = true) -> list_eqb eqb l l = true.
Proof. induction l as [|x l IH]; cbn; intros H; [reflexivity|]. rewrite H, IH by auto. reflexivity. Qed.
Lemma strings_eqb_self l : list_eqb String.eqb l l = true.
Proof. apply list_eqb_self. intros. apply String.eqb_refl. Qed.
Lemma damage_eqb_self d : damage_eqb d d = true.
Proof.
  unfold damage_eqb. rewrite !Qeq_bool_self, dclass_eqb_self, !forced_eqb_self, !opt_eqb_self by apply Qeq_bool_self. reflexivity.
Qed.
Lemma timing_eqb_self d : timing_eqb d d = true.
Proof. unfold timing_eqb. rewrite !Z.eqb_refl, !Bool.eqb_reflx. reflexivity. Qed.
Lemma status_eqb_self d : status_eqb d d = true.
Proof.
  unfold status_eqb. rewrite !Qeq_bool_self, !ext_eqb_self, !forced_eqb_self, !Bool.eqb_reflx, !Z.eqb_refl, strings_eqb_self,
    opt_eqb_self by apply strings_eqb_self. reflexivity.
Qed.
Lemma channeling_eqb_self d : channeling_eqb d d = true.
Proof. unfold channeling_eqb. rewrite !ext_eqb_self, strings_eqb_self. reflexivity. Qed.
Lemma jr_eqb_self d : jr_eqb d d = true.
Proof.
  unfold jr_eqb. rewrite String.eqb_refl, ext_eqb_self, !Bool.eqb_reflx. destruct (jr_change d); cbn; rewrite ?Z.eqb_refl; reflexivity.
Qed.
Lemma combo_eqb_self d : combo_eqb d d = true.
Proof. unfold combo_eqb. rewrite strings_eqb_self, Z.eqb_refl, !Bool.eqb_reflx. reflexivity. Qed.

Lemma cdict_eqb_self {V} (veqb : V -> V -> bool) d :
  distinct_setsb (map fst d) = true -> (forall k v, In (k, v) d -> veqb v v = true) -> cdict_eqb veqb d d = true.
Proof.
  intros D H. unfold cdict_eqb. rewrite Nat.eqb_refl. apply forallb_forall. intros [k v] I. cbn [fst snd].
  rewrite (in_cget k v d) by (try apply distinct_sets_dec; assumption). exact (H k v I).
Qed.
Lemma table_distinct {V} (d : list (cond * V)) : table_ok d = true -> distinct_setsb (map fst d) = true.
Proof. unfold table_ok. intros H. apply andb_true_iff in H as [H _]. exact H. Qed.
Lemma cspec_eqb_self {A} (eqb : A -> A -> bool) c : (forall a, eqb a a = true) -> cspec_ok c = true -> cspec_eqb eqb c c = true.
Proof.
  intros H K. destruct c as [|a|d]; cbn in *; auto. apply cdict_eqb_self; [apply table_distinct, K|]. intros. apply opt_eqb_self, H.
Qed.
Lemma tspec_eqb_self {A} (eqb : A -> A -> bool) t : (forall a, In a (tvalues t) -> eqb a a = true) -> tspec_ok t = true -> tspec_eqb eqb t t = true.
Proof.
  intros H K. destruct t as [l|d]; cbn [tspec_eqb tvalues] in *; [apply list_eqb_self, H|].
  destruct d as [|kv d]; [reflexivity|]. apply cdict_eqb_self; [apply table_distinct, K|]. intros k l I. apply list_eqb_self.
  intros a J. apply H. apply in_flat_map. exists (k, l). auto.
Qed.

Lemma skill_eqb_self n : forall s, all_parts n (fun _ => true) s = true -> (forall p, part_of p s -> lookups_ok true p = true) ->
  skill_eqb s s = true.
Proof.
  induction n as [|n IH]; intros s H L; [discriminate|]. cbn in H. rewrite forallb_forall in H.
  pose proof (L s (part_self s)) as K. unfold lookups_ok in K. rewrite !andb_true_iff in K.
  destruct K as [[[[[[[K1 K2] K3] K4] K5] K6] K7] K8]. cbn [negb orb] in K7.
  assert (E : tspec_eqb (fu_eqb skill_eqb) (sk_follow_ups s) (sk_follow_ups s) = true).
  { apply tspec_eqb_self; [|exact K7]. intros fu I. unfold fu_eqb. rewrite IH.
    - rewrite Z.eqb_refl, !Bool.eqb_reflx, opt_eqb_self by apply Z.eqb_refl. reflexivity.
    - apply H. exact I.
    - intros p P. apply L. econstructor; [exact I|exact P]. }
  assert (C : cspec_ok (sk_channeling s) = true) by (unfold chan_ok in K8; destruct (sk_channeling s); [reflexivity|reflexivity|discriminate]).
  destruct s. cbn in *. rewrite E, String.eqb_refl, !cspec_eqb_self, !tspec_eqb_self, !strings_eqb_self, !Bool.eqb_reflx, !String.eqb_refl
    by auto using damage_eqb_self, timing_eqb_self, status_eqb_self, channeling_eqb_self, jr_eqb_self, combo_eqb_self.
  reflexivity.
Qed.
