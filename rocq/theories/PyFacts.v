(** * The positions of Py.v stand for the version and the level *)

From Coq Require Import ZArith QArith List String Bool Lia.
From Verif Require Import Base BaseFacts Strings Types Lookup CondFacts Py.
Import ListNotations.
Open Scope string_scope.
Open Scope Z_scope.

(** ** Versions *)

Lemma ver_rank_range v : 0 <= ver_rank v <= 10.
Proof.
  unfold ver_rank, vlits. cbn [fold_right].
  repeat match goal with |- context [if ?b then _ else _] => destruct b end; lia.
Qed.

Lemma vlit_lt a b : str_ltb (vlit_name a) (vlit_name b) = (vlit_pos a <? vlit_pos b).
Proof. destruct a, b; reflexivity. Qed.

(** Comparing the position of a version with that of a literal is comparing the
    strings. *)
Lemma ver_rank_both v x :
  (vlit_pos x <? ver_rank v) = str_ltb (vlit_name x) v
  /\ (vlit_pos x =? ver_rank v) = String.eqb (vlit_name x) v.
Proof.
  unfold ver_rank, vlits. cbn [fold_right].
  destruct (str_ltb (vlit_name V655) v) eqn:L1; destruct (str_ltb (vlit_name V70) v) eqn:L2;
  destruct (str_ltb (vlit_name V701) v) eqn:L3; destruct (str_ltb (vlit_name V705) v) eqn:L4;
  destruct (str_ltb (vlit_name V71) v) eqn:L5;
  try (exfalso; match goal with
       | H : str_ltb (vlit_name ?a) v = false, H' : str_ltb (vlit_name ?b) v = true |- _ =>
           assert (X : str_ltb (vlit_name a) (vlit_name b) = true) by reflexivity;
           rewrite (str_ltb_trans _ _ _ X H') in H; discriminate
       end);
  destruct (String.eqb_spec (vlit_name V655) v) as [E1|E1];
  destruct (String.eqb_spec (vlit_name V70) v) as [E2|E2];
  destruct (String.eqb_spec (vlit_name V701) v) as [E3|E3];
  destruct (String.eqb_spec (vlit_name V705) v) as [E4|E4];
  destruct (String.eqb_spec (vlit_name V71) v) as [E5|E5];
  try (exfalso; subst v; discriminate);
  destruct x;
  try match goal with H : vlit_name ?a = v |- context [vlit_name ?a] => rewrite H end;
  repeat match goal with
  | H : str_ltb (vlit_name ?a) v = _ |- context [str_ltb (vlit_name ?a) v] => rewrite H
  | H : vlit_name ?a <> v |- context [String.eqb (vlit_name ?a) v] =>
      rewrite (proj2 (String.eqb_neq _ _) H)
  end;
  try (rewrite String.eqb_refl); try (rewrite str_ltb_irrefl); split; reflexivity.
Qed.
Lemma ver_rank_gt v x : (vlit_pos x <? ver_rank v) = str_ltb (vlit_name x) v.
Proof. apply ver_rank_both. Qed.
Lemma ver_rank_ge v x : (vlit_pos x <=? ver_rank v) = str_leb (vlit_name x) v.
Proof.
  destruct (ver_rank_both v x) as [G E]. rewrite str_leb_ltb.
  destruct (Z.leb_spec (vlit_pos x) (ver_rank v)) as [H|H]; symmetry.
  - apply negb_true_iff. destruct (str_ltb v (vlit_name x)) eqn:L; [|reflexivity].
    destruct (Z.eq_dec (vlit_pos x) (ver_rank v)) as [Q|Q].
    + rewrite (proj2 (Z.eqb_eq _ _) Q) in E. symmetry in E. apply String.eqb_eq in E. subst v.
      rewrite str_ltb_irrefl in L. discriminate.
    + assert (T : (vlit_pos x <? ver_rank v) = true) by (apply Z.ltb_lt; lia).
      rewrite T in G. symmetry in G. rewrite (str_ltb_asym _ _ G) in L. discriminate.
  - apply negb_false_iff. destruct (str_ltb v (vlit_name x)) eqn:L; [reflexivity|].
    assert (T : (vlit_pos x <? ver_rank v) = false) by (apply Z.ltb_ge; lia).
    rewrite T in G. symmetry in G. pose proof (str_ltb_total _ _ L G) as ->.
    rewrite String.eqb_refl in E. apply Z.eqb_eq in E. lia.
Qed.

(** The comparisons [self._version o x] of the definitions. *)
Definition str_cmp (o : cmpop) (a b : string) : bool :=
  match o with
  | OLt => str_ltb a b | OLe => str_leb a b | OGt => str_ltb b a | OGe => str_leb b a
  | OEq => String.eqb a b | ONe => negb (String.eqb a b)
  end.
Lemma cmp_version o v x : cmp_bool o (ver_rank v ?= vlit_pos x) = str_cmp o v (vlit_name x).
Proof.
  pose proof (ver_rank_gt v x) as G. pose proof (ver_rank_ge v x) as GE.
  destruct (ver_rank_both v x) as [_ E].
  assert (EQ : (ver_rank v =? vlit_pos x) = String.eqb v (vlit_name x)).
  { rewrite Z.eqb_sym, E. apply String.eqb_sym. }
  destruct o; cbn [str_cmp].
  - transitivity (negb (vlit_pos x <=? ver_rank v)).
    + unfold Z.leb. rewrite (Z.compare_antisym (ver_rank v)). destruct (ver_rank v ?= vlit_pos x); reflexivity.
    + rewrite GE, str_leb_ltb. apply negb_involutive.
  - transitivity (negb (vlit_pos x <? ver_rank v)).
    + unfold Z.ltb. rewrite (Z.compare_antisym (ver_rank v)). destruct (ver_rank v ?= vlit_pos x); reflexivity.
    + rewrite G, str_leb_ltb. reflexivity.
  - rewrite <- G. unfold Z.ltb. rewrite (Z.compare_antisym (ver_rank v)).
    destruct (ver_rank v ?= vlit_pos x); reflexivity.
  - rewrite <- GE. unfold Z.leb. rewrite (Z.compare_antisym (ver_rank v)).
    destruct (ver_rank v ?= vlit_pos x); reflexivity.
  - rewrite <- EQ. unfold Z.eqb, cmp_bool. destruct (ver_rank v), (vlit_pos x); cbn; try reflexivity;
      match goal with |- context [Pos.eqb ?a ?b] => rewrite ?Pos.eqb_compare end;
      match goal with |- context [Pos.compare ?a ?b] => destruct (Pos.compare a b) end; reflexivity.
  - rewrite <- EQ. unfold Z.eqb, cmp_bool. destruct (ver_rank v), (vlit_pos x); cbn; try reflexivity;
      match goal with |- context [Pos.eqb ?a ?b] => rewrite ?Pos.eqb_compare end;
      match goal with |- context [Pos.compare ?a ?b] => destruct (Pos.compare a b) end; reflexivity.
Qed.

(** ** Data tables *)

Definition named {V} (d : list (vlit * V)) : dict V := map (fun kv => (vlit_name (fst kv), snd kv)) d.
Definition run_max (b : string) (l : list string) : string :=
  fold_left (fun m y => if str_ltb m y then y else m) l b.
Lemma run_max_spec l : forall b, str_leb b (run_max b l) = true /\ (run_max b l = b \/ In (run_max b l) l).
Proof.
  induction l as [|y l IH]; intros b; cbn; [split; [apply str_leb_refl | auto]|].
  destruct (str_ltb b y) eqn:E.
  - destruct (IH y) as [A B]. split.
    + apply str_leb_trans with y; [|exact A]. rewrite str_leb_ltb, (str_ltb_asym _ _ E). reflexivity.
    + right. destruct B as [B|B]; [left; symmetry; exact B | right; exact B].
  - destruct (IH b) as [A B]. split; [exact A|]. destruct B; auto.
Qed.
Lemma vlit_name_inj a b : vlit_name a = vlit_name b -> a = b.
Proof. destruct a, b; cbn; congruence. Qed.

Lemma best_version_some {V} q (d : list (vlit * V)) : forall b x,
  best_version (ver_rank q) (Some (b, x)) d
  = dget (run_max (vlit_name b) (filter (fun k => str_leb k q) (dkeys (named d)))) ((vlit_name b, x) :: named d).
Proof.
  induction d as [|[v y] d IH]; intros b x; cbn [best_version named map dkeys fst snd filter].
  - cbn. rewrite String.eqb_refl. reflexivity.
  - rewrite ver_rank_ge. fold (named d). fold (dkeys (named d)).
    destruct (str_leb (vlit_name v) q) eqn:L; cbn [andb].
    + rewrite <- vlit_lt. cbn [run_max fold_left].
      fold (run_max (if str_ltb (vlit_name b) (vlit_name v) then vlit_name v else vlit_name b)
              (filter (fun k => str_leb k q) (dkeys (named d)))).
      destruct (str_ltb (vlit_name b) (vlit_name v)) eqn:T; rewrite IH.
      * set (M := run_max _ _). cbn [dget].
        destruct (String.eqb_spec M (vlit_name b)) as [E|E]; [|reflexivity].
        exfalso. destruct (run_max_spec (filter (fun k => str_leb k q) (dkeys (named d))) (vlit_name v)) as [A _].
        fold M in A. rewrite E, str_leb_ltb, T in A. discriminate.
      * set (M := run_max _ _). cbn [dget].
        destruct (String.eqb_spec M (vlit_name b)) as [E|E]; [reflexivity|].
        destruct (String.eqb_spec M (vlit_name v)) as [F|F]; [|reflexivity].
        exfalso. destruct (run_max_spec (filter (fun k => str_leb k q) (dkeys (named d))) (vlit_name b)) as [A _].
        fold M in A. rewrite F in A. apply E. rewrite F. apply str_ltb_total; [|exact T].
        rewrite str_leb_ltb in A. apply negb_true_iff in A. exact A.
    + rewrite IH. set (M := run_max _ _). cbn [dget].
      destruct (String.eqb_spec M (vlit_name b)) as [E|E]; [reflexivity|].
      destruct (String.eqb_spec M (vlit_name v)) as [F|F]; [|reflexivity].
      exfalso. destruct (run_max_spec (filter (fun k => str_leb k q) (dkeys (named d))) (vlit_name b)) as [_ [B|B]].
      * fold M in B. contradiction.
      * fold M in B. rewrite F in B. apply filter_In in B as [_ B]. congruence.
Qed.

(** Reading a version table is the lookup of utils.py. *)
Lemma best_version_named {V} q (d : list (vlit * V)) :
  best_version (ver_rank q) None d = get_greatest_dict_val (named d) q.
Proof.
  unfold get_greatest_dict_val, get_greatest_val_less_than_query.
  induction d as [|[v y] d IH]; [reflexivity|].
  cbn [best_version named map dkeys fst snd filter]. rewrite ver_rank_ge. fold (named d). fold (dkeys (named d)).
  destruct (str_leb (vlit_name v) q) eqn:L; cbn [andb].
  - rewrite best_version_some. reflexivity.
  - rewrite IH. unfold str_max. destruct (filter _ (dkeys (named d))) as [|k ks] eqn:F; [reflexivity|].
    cbn [of_option]. fold (run_max k ks). set (M := run_max k ks). cbn [dget].
    destruct (String.eqb_spec M (vlit_name v)) as [E|E]; [|reflexivity].
    exfalso. assert (I : In M (filter (fun k => str_leb k q) (dkeys (named d)))).
    { rewrite F. destruct (run_max_spec ks k) as [_ [B|B]]; fold M in B; [left; congruence | right; exact B]. }
    rewrite E in I. apply filter_In in I as [_ I]. congruence.
Qed.

(** ** Levels *)

Lemma lev_rank_lt n k : lev_ltb (lev_rank n) k = (n <? llit_num k).
Proof.
  unfold lev_rank. destruct (Z.eqb_spec n 90) as [->|A]; [destruct k; reflexivity|].
  destruct (Z.eqb_spec n 100) as [->|B]; [destruct k; reflexivity|].
  destruct (Z.ltb_spec n 92), (Z.ltb_spec n 96), (Z.ltb_spec n 100), k; cbn;
    symmetry; first [apply Z.ltb_lt; lia | apply Z.ltb_ge; lia].
Qed.
Lemma lev_rank_key n k : lev_key (lev_rank n) = Some k <-> n = k /\ (k = 90 \/ k = 100).
Proof.
  unfold lev_rank. destruct (Z.eqb_spec n 90) as [->|A].
  - cbn. split; [intros [= <-]; auto | intros [<- _]; reflexivity].
  - destruct (Z.eqb_spec n 100) as [->|B].
    + cbn. split; [intros [= <-]; auto | intros [<- _]; reflexivity].
    + destruct (n <? 92), (n <? 96), (n <? 100); cbn; split; try discriminate; intros [-> [E|E]]; contradiction.
Qed.

(** Every level key of the table is 90 or 100. *)
Definition levels_ok (t : data_table) : bool :=
  forallb (fun sk => forallb (fun lv => (fst lv =? 90) || (fst lv =? 100)) (snd sk)) t.

(** SpecificSkills.get_skill_data, specific_skills.py lines 20-32, on the version
    and the level themselves. *)
Definition get_skill_data (t : data_table) (version : string) (level : Z) (skill param : string)
  : res (option expr) :=
  match dget skill t with
  | None => Err AssertionError
  | Some by_level =>
      match zget level by_level with
      | None => Err AssertionError
      | Some params =>
          match dget param params with
          | None => Err AssertionError
          | Some versions => Ok (get_greatest_dict_val (named versions) version)
          end
      end
  end.
Lemma dget_In {V} k (d : dict V) v : dget k d = Some v -> In (k, v) d.
Proof.
  induction d as [|[k' v'] d IH]; cbn; [discriminate|].
  destruct (String.eqb_spec k k') as [->|N]; [intros [= ->]; auto | auto].
Qed.
Lemma zget_In {V} k (d : zdict V) v : zget k d = Some v -> In (k, v) d.
Proof.
  induction d as [|[k' v'] d IH]; cbn; [discriminate|].
  destruct (Z.eqb_spec k k') as [->|N]; [intros [= ->]; auto | auto].
Qed.
Lemma find_data_spec t version level skill param :
  levels_ok t = true ->
  find_data (ver_rank version) (lev_rank level) t skill param
  = get_skill_data t version level skill param.
Proof.
  intros OK. unfold find_data, get_skill_data.
  destruct (dget skill t) as [bl|] eqn:G; cbn [of_option bind]; [|reflexivity].
  assert (E : match lev_key (lev_rank level) with Some k => zget k bl | None => None end = zget level bl).
  { destruct (lev_key (lev_rank level)) as [k|] eqn:K.
    - apply lev_rank_key in K as [<- _]. reflexivity.
    - destruct (zget level bl) as [ps|] eqn:Z; [|reflexivity]. exfalso.
      unfold levels_ok in OK. rewrite forallb_forall in OK. specialize (OK _ (dget_In _ _ _ G)). cbn in OK.
      rewrite forallb_forall in OK. specialize (OK _ (zget_In _ _ _ Z)). cbn in OK.
      assert (X : lev_key (lev_rank level) = Some level); [|congruence].
      apply lev_rank_key. split; [reflexivity|].
      apply orb_true_iff in OK as [H|H]; apply Z.eqb_eq in H; auto. }
  rewrite E. destruct (zget level bl) as [ps|]; cbn [of_option bind]; [|reflexivity].
  destruct (dget param ps) as [vs|]; cbn [of_option bind]; [|reflexivity].
  rewrite best_version_named. reflexivity.
Qed.
