(** * Facts about the status effect tracker *)

From Coq Require Import ZArith QArith List String Bool Lia.
From Coq Require Import ZifyBool.
From Verif Require Import Base BaseFacts Float Strings Types Lookup StatusEffect SpecStatus.
Import ListNotations.
Open Scope string_scope.
Open Scope Z_scope.

(** ** Lists *)

Lemma sublist_refl {A} (l : list A) : sublist l l.
Proof. induction l; [apply sub_nil | apply sub_keep; auto]. Qed.
Lemma sublist_trans {A} (l1 l2 l3 : list A) : sublist l1 l2 -> sublist l2 l3 -> sublist l1 l3.
Proof.
  intros H12 H23. revert l1 H12. induction H23; intros l H12.
  - exact H12.
  - apply sub_skip. auto.
  - inversion H12; subst; [apply sub_skip | apply sub_keep]; auto.
Qed.
Lemma sublist_filter {A} (f : A -> bool) l : sublist (filter f l) l.
Proof. induction l as [|a l IH]; cbn; [constructor|]. destruct (f a); [apply sub_keep | apply sub_skip]; exact IH. Qed.
Lemma sublist_map {A B} (f : A -> B) l1 l2 : sublist l1 l2 -> sublist (map f l1) (map f l2).
Proof. induction 1; cbn; [apply sub_nil | apply sub_skip | apply sub_keep]; auto. Qed.
Lemma sublist_in {A} (l1 l2 : list A) x : sublist l1 l2 -> In x l1 -> In x l2.
Proof. induction 1; cbn; intuition. Qed.
Lemma sublist_nodup {A} (l1 l2 : list A) : sublist l1 l2 -> NoDup l2 -> NoDup l1.
Proof.
  induction 1; intros N; [constructor| |]; inversion N; subst; auto.
  constructor; auto. intros I. apply H2. eapply sublist_in; eassumption.
Qed.

Lemma remove_first_sublist x l : sublist (remove_first x l) l.
Proof.
  induction l as [|y l IH]; cbn; [constructor|]. destruct (String.eqb x y); [apply sub_skip, sublist_refl | apply sub_keep, IH].
Qed.
Lemma remove_first_in x y l : NoDup l -> (In y (remove_first x l) <-> In y l /\ y <> x).
Proof.
  induction l as [|z l IH]; intros N; cbn; [tauto|]. inversion N; subst.
  destruct (String.eqb_spec x z) as [->|E]; cbn.
  - split; [intros I; split; [auto|]; intros ->; contradiction | intros [[->|I] F]; congruence || auto].
  - rewrite IH by assumption. clear IH. intuition congruence.
Qed.
Lemma remove_all_sublist rest : forall l, sublist (fold_left (fun l x => remove_first x l) rest l) l.
Proof.
  induction rest as [|x rest IH]; intros l; cbn; [apply sublist_refl|].
  eapply sublist_trans; [apply IH | apply remove_first_sublist].
Qed.
Lemma remove_all_in rest : forall l y, NoDup l ->
  (In y (fold_left (fun l x => remove_first x l) rest l) <-> In y l /\ ~ In y rest).
Proof.
  induction rest as [|x rest IH]; intros l y N; cbn; [tauto|].
  rewrite IH by (eapply sublist_nodup; [apply remove_first_sublist | exact N]).
  rewrite remove_first_in by exact N. intuition.
Qed.

Lemma delete_lower_priority_sublist prio : forall l, sublist (delete_lower_priority prio l) l.
Proof.
  induction prio as [|p prio IH]; intros l; cbn; [apply sublist_refl|].
  destruct (smem p l); [apply remove_all_sublist | apply IH].
Qed.
Lemma delete_lower_priority_in prio : forall l y, NoDup l ->
  (In y (delete_lower_priority prio l) <-> In y l /\ ~ suppressed prio (fun n => In n l) y).
Proof.
  induction prio as [|p prio IH]; intros l y N; cbn [delete_lower_priority].
  - split; [|tauto]. intros H. split; [exact H|]. intros (b & h & w & a & E & _). destruct b; discriminate.
  - destruct (smem p l) eqn:M.
    + apply smem_spec in M. rewrite remove_all_in by exact N. split; intros [I F]; split; auto.
      * intros (b & h & w & a & E & _). apply F. destruct b as [|z b]; injection E as -> ->.
        -- apply in_app_iff. right. left. reflexivity.
        -- apply in_app_iff. right. right. apply in_app_iff. right. left. reflexivity.
      * intros J. apply F. destruct (in_split _ _ J) as (w & a & ->).
        exists [], p, w, a. split; [reflexivity | exact M].
    + apply smem_false in M. rewrite IH by exact N. split; intros [I F]; split; auto.
      * intros (b & h & w & a & E & G). destruct b as [|z b]; injection E as -> ->; [contradiction|].
        apply F. exists b, h, w, a. auto.
      * intros (b & h & w & a & E & G). apply F. exists (p :: b), h, w, a. subst prio. auto.
Qed.

(** ** Validity *)

Lemma z_gt_ext_false t e : z_gt_ext t e = false <-> not_over t e.
Proof. destruct e; cbn; [lia | tauto]. Qed.
Lemma ext_is0_false e : ext_is0 e = false <-> has_uses e.
Proof.
  unfold ext_is0, has_uses. destruct e as [z|]; cbn; [|split; [discriminate | reflexivity]].
  split; [intros H [= ->]; discriminate | intros H; apply Z.eqb_neq; congruence].
Qed.

Lemma expire_effects_get t d n :
  NoDup (dkeys d) ->
  dget n (expire_effects t d)
  = match dget n d with
    | Some a => if expired_at t a then None else Some a
    | None => None
    end.
Proof.
  intros N. unfold expire_effects. rewrite dget_filter by exact N.
  destruct (dget n d) as [a|]; cbn; [destruct (expired_at t a)|]; reflexivity.
Qed.
Lemma expire_effects_nodup t d : NoDup (dkeys d) -> NoDup (dkeys (expire_effects t d)).
Proof. apply filter_nodup_keys. Qed.

Lemma valid_status_effects_in t d s n :
  NoDup (dkeys d) ->
  (In n (valid_status_effects t (expire_effects t d) (sk_denylist s) (sk_name s))
   <-> exists a, dget n d = Some a /\ eligible t s n a).
Proof.
  intros N. unfold valid_status_effects. rewrite in_map_iff. split.
  - intros ((n' & a) & E & I). cbn in E. subst n'. apply filter_In in I as [I V].
    apply in_dget in I; [|apply expire_effects_nodup, N]. rewrite expire_effects_get in I by exact N.
    destruct (dget n d) as [a'|]; [|discriminate]. destruct (expired_at t a') eqn:X; [discriminate|].
    injection I as ->. exists a. split; [reflexivity|].
    unfold expired_at in X. apply orb_false_iff in X as [X1 X2].
    apply z_gt_ext_false in X1. apply ext_is0_false in X2.
    unfold valid_effect in V. cbn [fst snd] in V. rewrite !andb_true_iff, !negb_true_iff in V.
    destruct V as [[V1 V2] V3]. apply smem_false in V2. unfold eligible. repeat split; auto; [lia|].
    intros l E. rewrite E in V3. apply smem_spec. exact V3.
  - intros (a & G & E1 & E2 & E3 & E4 & E5). exists (n, a). split; [reflexivity|].
    apply filter_In. split.
    + apply dget_in. rewrite expire_effects_get, G by exact N.
      assert (X : expired_at t a = false).
      { unfold expired_at. apply orb_false_iff. split; [apply z_gt_ext_false | apply ext_is0_false]; assumption. }
      rewrite X. reflexivity.
    + unfold valid_effect. cbn [fst snd]. rewrite !andb_true_iff, !negb_true_iff. repeat split.
      * lia.
      * apply smem_false. exact E4.
      * destruct (se_allowlist (ac_spec a)) as [l|] eqn:L; [|reflexivity]. apply smem_spec. apply E5. reflexivity.
Qed.
Lemma valid_status_effects_sub t d deny nm :
  sublist (valid_status_effects t d deny nm) (dkeys d).
Proof. unfold valid_status_effects, dkeys. apply sublist_map, sublist_filter. Qed.
Lemma expire_effects_sub t d : sublist (dkeys (expire_effects t d)) (dkeys d).
Proof. unfold expire_effects, dkeys. apply sublist_map, sublist_filter. Qed.

(** The names used by a compilation. *)
Definition used_names (prio : list string) (t : Z) (d : dict active) (s : skill) : list string :=
  delete_lower_priority prio (valid_status_effects t (expire_effects t d) (sk_denylist s) (sk_name s)).

Lemma suppressed_ext prio (P Q : string -> Prop) n :
  (forall x, P x <-> Q x) -> (suppressed prio P n <-> suppressed prio Q n).
Proof.
  intros H. split; intros (b & h & w & a & E & G); exists b, h, w, a; (split; [exact E | apply H, G]).
Qed.

Lemma used_names_in prio t d s n :
  NoDup (dkeys d) -> (In n (used_names prio t d s) <-> counts prio t s d n).
Proof.
  intros N. unfold used_names.
  assert (NV : NoDup (valid_status_effects t (expire_effects t d) (sk_denylist s) (sk_name s))).
  { eapply sublist_nodup; [|exact N]. eapply sublist_trans;
      [apply valid_status_effects_sub | apply expire_effects_sub]. }
  rewrite delete_lower_priority_in by exact NV. unfold counts.
  rewrite valid_status_effects_in by exact N.
  rewrite (suppressed_ext prio _ _ n (fun x => valid_status_effects_in t d s x N)). tauto.
Qed.
Lemma used_names_sub prio t d s : sublist (used_names prio t d s) (dkeys d).
Proof.
  eapply sublist_trans; [apply delete_lower_priority_sublist|].
  eapply sublist_trans; [apply valid_status_effects_sub | apply expire_effects_sub].
Qed.

(** ** Merging *)

Lemma merge_forced_ok acc new r :
  merge_forced acc new = Ok r ->
  (new = F_DEFAULT /\ r = acc) \/ (new <> F_DEFAULT /\ acc = F_DEFAULT /\ r = new).
Proof. destruct acc, new; cbn; intros [= <-]; auto; right; repeat split; discriminate. Qed.
Lemma merge_forced_err acc new e :
  merge_forced acc new = Err e -> e = AssertionError /\ new <> F_DEFAULT /\ acc <> F_DEFAULT.
Proof. destruct acc, new; cbn; intros [= <-]; repeat split; discriminate. Qed.

Lemma forced_of_snoc l f x r :
  forced_of l f -> merge_forced f x = Ok r -> forced_of (l ++ [x]) r.
Proof.
  intros F M. apply merge_forced_ok in M as [[-> ->]|(Nx & -> & ->)].
  - destruct F as [[-> F]|(l1 & l2 & -> & Nf & F)].
    + left. split; [reflexivity|]. intros y H. apply in_app_iff in H as [H|[<-|[]]]; auto.
    + right. exists l1, (l2 ++ [F_DEFAULT])%list. split; [rewrite <- app_assoc; reflexivity|]. split; [exact Nf|].
      intros y H. rewrite app_assoc in H. apply in_app_iff in H as [H|[<-|[]]]; auto.
  - destruct F as [[_ F]|(l1 & l2 & -> & Nf & F)]; [|congruence].
    right. exists l, []. split; [reflexivity|]. split; [exact Nx|]. rewrite app_nil_r. exact F.
Qed.

Lemma combined_snoc l e sp e' :
  combined l e -> merge_effect e sp = Ok e' -> combined (l ++ [sp]) e'.
Proof.
  unfold combined. intros (H1 & H2 & H3 & H4 & H5 & H6 & H7 & H8 & H9 & H10 & H11) M.
  unfold merge_effect in M. inv_bind M. inv_bind M. injection M as <-.
  unfold fsum, fprod, ext_sum, zsum in *. rewrite !map_app. cbn [map]. rewrite !fold_left_app. cbn [fold_left].
  cbn [ef_crit_rate_add ef_dh_rate_add ef_damage_mult ef_main_stat_add ef_main_stat_mult ef_auto_delay_mult
       ef_haste_mult ef_flat_cast ef_flat_gcd ef_crit ef_dh].
  rewrite <- H1, <- H2, <- H3, <- H4, <- H5, <- H6, <- H7, <- H8, <- H9.
  repeat (split; [reflexivity|]).
  split; eapply forced_of_snoc; eassumption.
Qed.
Lemma combined_nil : combined [] no_effects.
Proof.
  unfold combined. cbn. repeat (split; [reflexivity|]).
  split; left; (split; [reflexivity | intros x []]).
Qed.
Lemma combined_names l e n : combined l e -> combined l (set_names e n).
Proof. intros H; exact H. Qed.

(** ** The loop *)

Lemma dset_keys_same {V} k (v w : V) d : dget k d = Some w -> dkeys (dset k v d) = dkeys d.
Proof.
  unfold dkeys. induction d as [|[k' v'] d IH]; cbn; [discriminate|].
  destruct (String.eqb_spec k k') as [->|N]; cbn; [reflexivity|]. intros H. rewrite IH; auto.
Qed.

Definition at_names {V} (d : dict V) (names : list string) (l : list V) : Prop :=
  Forall2 (fun n v => dget n d = Some v) names l.

Lemma use_loop names : forall d e conds d' e' conds',
  NoDup names ->
  foldM use_effect names (d, e, conds) = Ok (d', e', conds') ->
  exists acts,
    Forall2 (fun n a => dget n d = Some a) names acts
    /\ (forall l, combined l e -> combined (l ++ map ac_spec acts) e')
    /\ ef_names e' = ef_names e
    /\ dkeys d' = dkeys d
    /\ (forall n, dget n d' = if smem n names then option_map used (dget n d) else dget n d)
    /\ conds' = (conds ++ map fst (filter (fun na => add_to_skill_modifier_condition (ac_spec (snd na)))
                                     (combine names acts)))%list.
Proof.
  induction names as [|n names IH]; intros d e conds d' e' conds' N H; cbn [foldM] in H.
  - injection H as <- <- <-. exists []. split; [constructor|]. split.
    { intros l C. rewrite app_nil_r. exact C. }
    split; [reflexivity|]. split; [reflexivity|]. split; [reflexivity|]. cbn. rewrite app_nil_r. reflexivity.
  - inversion N as [|? ? Nn N']; subst.
    apply bind_ok in H as (((d1 & e1) & c1) & U & H). unfold use_effect in U. inv_bind U. inv_bind U.
    injection U as <- <- <-.
    rename a into act. rename a0 into em.
    destruct (dget n d) as [act'|] eqn:G; [|discriminate]. cbn in E. injection E as ->.
    set (d1 := dset n _ d) in H.
    apply IH in H as (acts & F & C & En & K & Gd & Cd); [|exact N'].
    assert (Gd1 : forall x, dget x d1 = if String.eqb x n then Some (used act) else dget x d).
    { intros x. unfold d1. rewrite dget_dset. reflexivity. }
    exists (act :: acts). split; [|split; [|split; [|split; [|split]]]].
    + constructor; [exact G|]. clear - F Gd1 Nn. induction F as [|x a xs as_ Fx F IH]; [constructor|].
      constructor.
      * rewrite Gd1 in Fx. destruct (String.eqb_spec x n) as [->|Nx]; [exfalso; apply Nn; left; reflexivity | exact Fx].
      * apply IH. intros I. apply Nn. right. exact I.
    + intros l Cl. cbn [map]. change (ac_spec act :: map ac_spec acts) with ([ac_spec act] ++ map ac_spec acts)%list.
      rewrite app_assoc. apply C. eapply combined_snoc; eassumption.
    + rewrite En. unfold merge_effect in E0. inv_bind E0. inv_bind E0. injection E0 as <-. reflexivity.
    + rewrite K. apply dset_keys_same with act. exact G.
    + intros x. rewrite Gd, Gd1. unfold smem. cbn [existsb]. destruct (String.eqb_spec x n) as [->|Nx]; cbn [orb].
      * fold (smem n names). destruct (smem n names) eqn:M; [apply smem_spec in M; contradiction|].
        rewrite G. reflexivity.
      * reflexivity.
    + cbn [combine filter snd]. subst conds'.
      destruct (add_to_skill_modifier_condition (ac_spec act)); cbn [map fst]; [|reflexivity].
      rewrite <- app_assoc. reflexivity.
Qed.

(** ** C24 *)

Lemma compile_spec prio t d s d' e c :
  NoDup (dkeys d) ->
  compile_effects prio t (expire_effects t d) (sk_denylist s) (sk_name s) = Ok (d', (e, c)) ->
  (forall n, In n (ef_names e) <-> counts prio t s d n)
  /\ sublist (ef_names e) (dkeys d)
  /\ (exists acts,
        Forall2 (fun n a => dget n d = Some a) (ef_names e) acts
        /\ combined (map ac_spec acts) e
        /\ c = join ", " (map fst (filter (fun na => add_to_skill_modifier_condition (ac_spec (snd na)))
                                     (combine (ef_names e) acts))))
  /\ (forall n, dget n d' = if in_dec string_dec n (ef_names e)
                            then option_map used (dget n d)
                            else dget n (expire_effects t d)).
Proof.
  intros N H. unfold compile_effects in H. fold (used_names prio t d s) in H.
  inv_bind H. destruct a as ((d1 & e1) & conds). injection H as <- <- <-. rename E into L.
  assert (NN : NoDup (used_names prio t d s)) by (eapply sublist_nodup; [apply used_names_sub | exact N]).
  apply use_loop in L as (acts & F & C & En & K & G & Cd); [|exact NN].
  cbn [set_names ef_names]. split; [|split; [|split]].
  - intros n. apply used_names_in. exact N.
  - apply used_names_sub.
  - exists acts. split; [|split].
    + clear - F N. induction F as [|n a ns as_ Fa F IH]; constructor; auto.
      rewrite expire_effects_get in Fa by exact N. destruct (dget n d); [|discriminate].
      destruct (expired_at t a0); [discriminate | exact Fa].
    + apply combined_names. apply (C [] combined_nil).
    + subst conds. reflexivity.
  - intros n. rewrite G. destruct (in_dec string_dec n (used_names prio t d s)) as [I|I].
    + assert (M : smem n (used_names prio t d s) = true) by (apply smem_spec; exact I). rewrite M. f_equal.
      rewrite expire_effects_get by exact N. apply used_names_in in I; [|exact N].
      destruct I as ((a & Ga & _ & E2 & E3 & _) & _). rewrite Ga.
      assert (X : expired_at t a = false).
      { unfold expired_at. apply orb_false_iff. split; [apply z_gt_ext_false | apply ext_is0_false]; assumption. }
      rewrite X. reflexivity.
    + assert (M : smem n (used_names prio t d s) = false) by (apply smem_false; exact I). rewrite M. reflexivity.
Qed.

(** ** When compilation raises *)

Lemma merge_forced_total l f x :
  forced_of l f -> at_most_one_forced (l ++ [x]) -> exists r, merge_forced f x = Ok r.
Proof.
  intros F A. destruct (merge_forced f x) as [r|err] eqn:M; [eauto|]. exfalso.
  apply merge_forced_err in M as (_ & Nx & Nf).
  destruct F as [[-> _]|(l1 & l2 & -> & _ & _)]; [congruence|].
  destruct (A l1 f l2 x []) as [H|H]; [rewrite <- app_assoc; reflexivity | congruence | congruence].
Qed.
Lemma at_most_one_app l1 l2 : at_most_one_forced (l1 ++ l2) -> at_most_one_forced l1.
Proof.
  intros A a x b y c ->. apply (A a x b y (c ++ l2)%list). rewrite <- !app_assoc. cbn.
  rewrite <- app_assoc. reflexivity.
Qed.
Lemma forced_of_at_most_one l f : forced_of l f -> at_most_one_forced l.
Proof.
  intros F a x b y c ->. destruct F as [[_ F]|(l1 & l2 & E & _ & F)].
  - left. apply F. apply in_app_iff. right. left. reflexivity.
  - assert (forall u v (p q : list forced), (a ++ x :: b ++ y :: c = p ++ u :: q)%list -> (forall z, In z (p ++ q) -> z = v) ->
      x = v \/ y = v) as G; [|apply (G f F_DEFAULT l1 l2 E F)].
    clear. intros u v p q E H. revert p E H. induction a as [|z a IH]; intros p E H.
    + destruct p as [|z p]; cbn in E; injection E as -> E.
      * right. apply H. cbn. subst q. apply in_app_iff. right. left. reflexivity.
      * left. apply H. left. reflexivity.
    + destruct p as [|z' p]; cbn in E; injection E as -> E.
      * left. apply H. cbn. subst q. apply in_app_iff. right. left. reflexivity.
      * apply (IH p E). intros w Hw. apply H. right. exact Hw.
Qed.

Lemma use_loop_total names : forall d e conds acts l,
  NoDup names -> Forall2 (fun n a => dget n d = Some a) names acts -> combined l e ->
  at_most_one_forced (map se_crit (l ++ map ac_spec acts)) ->
  at_most_one_forced (map se_dh (l ++ map ac_spec acts)) ->
  exists r, foldM use_effect names (d, e, conds) = Ok r.
Proof.
  induction names as [|n names IH]; intros d e conds acts l N F C A1 A2; cbn [foldM]; [eauto|].
  inversion F as [|? a ? acts' G F']; subst. inversion N as [|? ? Nn N']; subst.
  unfold use_effect at 1. rewrite G. cbn [of_option bind].
  cbn [map] in A1, A2.
  replace (l ++ ac_spec a :: map ac_spec acts')%list with ((l ++ [ac_spec a]) ++ map ac_spec acts')%list in A1, A2
    by (rewrite <- app_assoc; reflexivity).
  assert (M : exists e', merge_effect e (ac_spec a) = Ok e').
  { destruct C as (_ & _ & _ & _ & _ & _ & _ & _ & _ & C1 & C2). unfold merge_effect.
    pose proof A1 as B1. rewrite map_app in B1. apply at_most_one_app in B1. rewrite map_app in B1.
    pose proof A2 as B2. rewrite map_app in B2. apply at_most_one_app in B2. rewrite map_app in B2.
    destruct (merge_forced_total _ _ _ C1 B1) as (r1 & ->).
    destruct (merge_forced_total _ _ _ C2 B2) as (r2 & ->). cbn. eauto. }
  destruct M as (e' & M). rewrite M. cbn [bind].
  eapply IH with (acts := acts') (l := (l ++ [ac_spec a])%list); auto.
  - clear - F' Nn. induction F' as [|x b xs bs H F' IH]; constructor.
    + rewrite dget_dset. destruct (String.eqb_spec x n) as [->|Nx]; [exfalso; apply Nn; left; reflexivity | exact H].
    + apply IH. intros I. apply Nn. right. exact I.
  - eapply combined_snoc; eassumption.
Qed.

Lemma use_loop_err names : forall d e conds err,
  (forall n, In n names -> exists a, dget n d = Some a) ->
  foldM use_effect names (d, e, conds) = Err err -> err = AssertionError.
Proof.
  induction names as [|n names IH]; intros d e conds err F H; cbn [foldM] in H; [discriminate|].
  destruct (F n (or_introl eq_refl)) as (a & G). unfold use_effect at 1 in H. rewrite G in H. cbn [of_option bind] in H.
  destruct (merge_effect e (ac_spec a)) as [e'|err'] eqn:M.
  - cbn [bind] in H. apply IH in H; [exact H|]. intros x Hx. rewrite dget_dset.
    destruct (String.eqb x n); [eauto | apply F; right; exact Hx].
  - cbn [bind] in H. injection H as ->. unfold merge_effect in M.
    destruct (merge_forced (ef_crit e) (se_crit (ac_spec a))) eqn:M1.
    + cbn [bind] in M. destruct (merge_forced (ef_dh e) (se_dh (ac_spec a))) eqn:M2; [discriminate|].
      cbn in M. injection M as <-. apply merge_forced_err in M2 as [-> _]. reflexivity.
    + cbn [bind] in M. injection M as <-. apply merge_forced_err in M1 as [-> _]. reflexivity.
Qed.

Lemma names_acts {V} (d : dict V) l :
  (forall n, In n l -> exists a, dget n d = Some a) -> exists acts, Forall2 (fun n a => dget n d = Some a) l acts.
Proof.
  induction l as [|n l IH]; intros H; [exists []; constructor|].
  destruct (H n (or_introl eq_refl)) as (a & G). destruct IH as (acts & F); [intros; apply H; right; assumption|].
  exists (a :: acts). constructor; assumption.
Qed.
Lemma forall2_dget_fun {V} (d : dict V) l a1 a2 :
  Forall2 (fun n a => dget n d = Some a) l a1 -> Forall2 (fun n a => dget n d = Some a) l a2 -> a1 = a2.
Proof.
  intros F. revert a2. induction F as [|n a l a1 H F IH]; intros a2 F2; inversion F2; subst; [reflexivity|].
  f_equal; [congruence | auto].
Qed.

(** Compilation raises exactly when two of the counting effects force an outcome. *)
Lemma compile_total prio t d s :
  NoDup (dkeys d) ->
  exists names acts,
    (forall n, In n names <-> counts prio t s d n) /\ sublist names (dkeys d)
    /\ Forall2 (fun n a => dget n d = Some a) names acts
    /\ ((exists r, compile_effects prio t (expire_effects t d) (sk_denylist s) (sk_name s) = Ok r)
        <-> at_most_one_forced (map (fun a => se_crit (ac_spec a)) acts)
            /\ at_most_one_forced (map (fun a => se_dh (ac_spec a)) acts))
    /\ (forall err, compile_effects prio t (expire_effects t d) (sk_denylist s) (sk_name s) = Err err ->
          err = AssertionError).
Proof.
  intros N. set (names := used_names prio t d s).
  assert (NN : NoDup names) by (eapply sublist_nodup; [apply used_names_sub | exact N]).
  assert (Ex : forall n, In n names -> exists a, dget n d = Some a /\ dget n (expire_effects t d) = Some a).
  { intros n I. apply used_names_in in I; [|exact N]. destruct I as ((a & Ga & _ & E2 & E3 & _) & _).
    exists a. split; [exact Ga|]. rewrite expire_effects_get, Ga by exact N.
    assert (X : expired_at t a = false).
    { unfold expired_at. apply orb_false_iff. split; [apply z_gt_ext_false | apply ext_is0_false]; assumption. }
    rewrite X. reflexivity. }
  destruct (names_acts d names) as (acts & F); [intros n I; destruct (Ex n I) as (a & H & _); eauto|].
  assert (F' : Forall2 (fun n a => dget n (expire_effects t d) = Some a) names acts).
  { revert Ex. clear - F. induction F as [|n a l as_ H F IH]; intros Ex; [constructor|]. constructor.
    - destruct (Ex n (or_introl eq_refl)) as (a' & H1 & H2). congruence.
    - apply IH. intros x Hx. apply Ex. right. exact Hx. }
  exists names, acts. split; [intros n; apply used_names_in, N|]. split; [apply used_names_sub|].
  split; [exact F|]. unfold compile_effects. fold (used_names prio t d s). fold names. split; [split|].
  - intros (r & H). inv_bind H. destruct a as ((d1 & e1) & cs).
    apply use_loop in E as (acts' & Fa & C & _); [|exact NN].
    pose proof (forall2_dget_fun _ _ _ _ F' Fa) as <-.
    pose proof (C [] combined_nil) as (_ & _ & _ & _ & _ & _ & _ & _ & _ & C1 & C2). cbn [app] in C1, C2.
    rewrite map_map in C1, C2.
    split; eapply forced_of_at_most_one; eassumption.
  - intros [A1 A2]. destruct (use_loop_total names (expire_effects t d) no_effects [] acts []) as (r & R); auto.
    + apply combined_nil.
    + cbn [app]. rewrite map_map. exact A1.
    + cbn [app]. rewrite map_map. exact A2.
    + rewrite R. cbn [bind]. destruct r as ((d1 & e1) & cs). eauto.
  - intros err H. destruct (foldM use_effect names (expire_effects t d, no_effects, [])) as [r|e0] eqn:L.
    + cbn [bind] in H. destruct r as ((d1 & e1) & cs). discriminate.
    + cbn in H. injection H as <-. eapply use_loop_err; [|exact L].
      intros n I. destruct (Ex n I) as (a & _ & H). eauto.
Qed.

(** ** Well-formed trackers *)

Record se_wf (st : se_tracker) : Prop := {
  wf_buffs : NoDup (dkeys (se_buffs st));
  wf_targets : NoDup (dkeys (se_debuffs st));
  wf_debuffs : forall target, NoDup (dkeys (get_debuffs st target))
}.

Lemma se_wf_init prio : se_wf (se_init prio).
Proof. constructor; cbn; constructor. Qed.

Lemma get_debuffs_set_debuffs st x target d :
  get_debuffs (set_debuffs st target d) x = if String.eqb x target then d else get_debuffs st x.
Proof.
  unfold get_debuffs, set_debuffs. cbn [se_debuffs]. rewrite dget_dset. destruct (String.eqb x target); reflexivity.
Qed.
Lemma get_debuffs_set_buffs st x b : get_debuffs (set_buffs st b) x = get_debuffs st x.
Proof. reflexivity. Qed.
Lemma get_debuffs_expire t st x :
  get_debuffs (expire_status_effects t st) x = expire_effects t (get_debuffs st x).
Proof.
  unfold get_debuffs, expire_status_effects. cbn [se_debuffs].
  induction (se_debuffs st) as [|[k d] l IH]; cbn; [reflexivity|].
  destruct (String.eqb x k); [reflexivity | exact IH].
Qed.

Lemma wf_set_buffs st b : se_wf st -> NoDup (dkeys b) -> se_wf (set_buffs st b).
Proof. intros [W1 W2 W3] N. constructor; auto. Qed.
Lemma wf_set_debuffs st target d : se_wf st -> NoDup (dkeys d) -> se_wf (set_debuffs st target d).
Proof.
  intros [W1 W2 W3] N. constructor; cbn; [exact W1 | apply dset_nodup, W2|].
  intros x. fold (get_debuffs (set_debuffs st target d) x). rewrite get_debuffs_set_debuffs.
  destruct (String.eqb x target); auto.
Qed.
Lemma wf_expire t st : se_wf st -> se_wf (expire_status_effects t st).
Proof.
  intros [W1 W2 W3]. constructor.
  - apply expire_effects_nodup, W1.
  - cbn. unfold dkeys. rewrite map_map. exact W2.
  - intros x. rewrite get_debuffs_expire. apply expire_effects_nodup, W3.
Qed.
Lemma end_effect_nodup d n t : NoDup (dkeys d) -> NoDup (dkeys (end_effect d n t)).
Proof. intros N. unfold end_effect. destruct (dget n d); [apply dset_nodup, N | exact N]. Qed.
Lemma add_effect_nodup d t n sp : NoDup (dkeys d) -> NoDup (dkeys (add_effect d t n sp)).
Proof.
  intros N. unfold add_effect. destruct (dget n d); [apply dset_nodup, N|].
  destruct (extend_only sp); [exact N | apply dset_nodup, N].
Qed.
Lemma wf_expire_named st n t target : se_wf st -> se_wf (expire_named_effect st n t target).
Proof.
  intros W. unfold expire_named_effect.
  assert (W1 : se_wf (set_buffs st (end_effect (se_buffs st) n t))).
  { apply wf_set_buffs; [exact W | apply end_effect_nodup, W]. }
  destruct (dget n _); [|exact W1]. apply wf_set_debuffs; [exact W1|]. apply end_effect_nodup, W1.
Qed.
Lemma wf_expire_list ns : forall st t target, se_wf st ->
  se_wf (fold_left (fun s n => expire_named_effect s n t target) ns st).
Proof. induction ns as [|n ns IH]; intros st t target W; cbn; [exact W|]. apply IH, wf_expire_named, W. Qed.
Lemma wf_apply_buff st t n sp : se_wf st -> se_wf (apply_buff st t n sp).
Proof.
  intros W. unfold apply_buff. apply wf_expire_list, wf_set_buffs; [exact W|]. apply add_effect_nodup.
  destruct (clear_all_status_effects sp); [constructor | apply W].
Qed.
Lemma wf_apply_debuff t n sp st target : se_wf st -> se_wf (apply_debuff t n sp st target).
Proof.
  intros W. unfold apply_debuff. apply wf_expire_list, wf_set_debuffs; [exact W|]. apply add_effect_nodup, W.
Qed.
Lemma wf_add st t s m targets st' : se_wf st -> add_to_status_effects st t s m targets = Ok st' -> se_wf st'.
Proof.
  intros W H. unfold add_to_status_effects in H. inv_bind H. inv_bind H. injection H as <-.
  assert (W1 : se_wf (match a with Some sp => apply_buff st t (sk_name s) sp | None => st end))
    by (destruct a; [apply wf_apply_buff, W | exact W]).
  destruct a0 as [sp|]; [|exact W1]. revert W1. generalize (match a with Some sp => apply_buff st t (sk_name s) sp | None => st end).
  induction targets as [|x l IH]; intros st1 W1; cbn; [exact W1|]. apply IH, wf_apply_debuff, W1.
Qed.
Lemma compile_keys prio t d deny nm d' r :
  NoDup (dkeys d) -> compile_effects prio t d deny nm = Ok (d', r) -> dkeys d' = dkeys d.
Proof.
  intros N H. unfold compile_effects in H. inv_bind H. destruct a as ((d1 & e1) & cs). injection H as <- _.
  apply use_loop in E as (acts & _ & _ & _ & K & _); [exact K|].
  eapply sublist_nodup; [|exact N]. eapply sublist_trans; [apply delete_lower_priority_sublist|].
  apply valid_status_effects_sub.
Qed.
Lemma wf_step st op st' : se_wf st -> se_apply st op = Ok st' -> se_wf st'.
Proof.
  intros W H. destruct op; cbn [se_apply] in H.
  - injection H as <-. apply wf_expire, W.
  - eapply wf_add; eassumption.
  - inv_bind H. destruct a as [st1 r]. injection H as <-. unfold compile_buffs in E. inv_bind E.
    destruct a as [d r']. injection E as <- _. apply wf_set_buffs; [exact W|].
    erewrite compile_keys; [apply W | apply W | exact E0].
  - inv_bind H. destruct a as [st1 r]. injection H as <-. unfold compile_debuffs in E. inv_bind E.
    destruct a as [d r']. injection E as <- _. apply wf_set_debuffs; [exact W|].
    rewrite (compile_keys _ _ _ _ _ _ _ (wf_debuffs _ W target) E0). apply W.
Qed.
Lemma reachable_wf st : se_reachable st -> se_wf st.
Proof.
  intros (prio & ops & H). revert H. apply (foldM_inv se_apply se_wf); [apply se_wf_init|].
  intros s a s' _ W E. eapply wf_step; eassumption.
Qed.

(** ** The API: compilation after expiry *)

Lemma expired_cases t (o : option active) :
  match o with
  | Some a => (not_over t (ac_end a) /\ has_uses (ac_uses a) ->
               match o with Some a => if expired_at t a then None else Some a | None => None end = Some a)
              /\ (~ (not_over t (ac_end a) /\ has_uses (ac_uses a)) ->
               match o with Some a => if expired_at t a then None else Some a | None => None end = None)
  | None => match o with Some a => if expired_at t a then None else Some a | None => None end = None
  end.
Proof.
  destruct o as [a|]; [|reflexivity]. unfold expired_at. split.
  - intros [H1 H2]. assert (X : z_gt_ext t (ac_end a) || ext_is0 (ac_uses a) = false).
    { apply orb_false_iff. split; [apply z_gt_ext_false | apply ext_is0_false]; assumption. }
    rewrite X. reflexivity.
  - intros H. destruct (z_gt_ext t (ac_end a)) eqn:E1; [reflexivity|].
    destruct (ext_is0 (ac_uses a)) eqn:E2; [reflexivity|]. exfalso. apply H.
    split; [apply z_gt_ext_false | apply ext_is0_false]; assumption.
Qed.

Lemma compile_buffs_spec st t s st' e c :
  se_reachable st ->
  compile_buffs (expire_status_effects t st) t s = Ok (st', (e, c)) ->
  (forall n, In n (effect_names e) <-> counts (se_priority st) t s (se_buffs st) n)
  /\ sublist (effect_names e) (dkeys (se_buffs st))
  /\ (exists acts,
        Forall2 (fun n a => dget n (se_buffs st) = Some a) (effect_names e) acts
        /\ combined (map ac_spec acts) e
        /\ c = join ", " (map fst (filter (fun na => add_to_skill_modifier_condition (ac_spec (snd na)))
                                     (combine (effect_names e) acts))))
  /\ (forall n a, In n (effect_names e) -> dget n (se_buffs st) = Some a ->
        dget n (se_buffs st') = Some (used a))
  /\ (forall n, ~ In n (effect_names e) ->
        match dget n (se_buffs st) with
        | Some a => (not_over t (ac_end a) /\ has_uses (ac_uses a) -> dget n (se_buffs st') = Some a)
                    /\ (~ (not_over t (ac_end a) /\ has_uses (ac_uses a)) -> dget n (se_buffs st') = None)
        | None => dget n (se_buffs st') = None
        end)
  /\ (forall target, get_debuffs st' target = get_debuffs (expire_status_effects t st) target).
Proof.
  intros R H. apply reachable_wf in R. unfold compile_buffs in H. inv_bind H.
  destruct a as [d r]. injection H as <- ->. cbn [expire_status_effects se_buffs se_priority] in E.
  apply compile_spec in E; [|apply R]. destruct E as (H1 & H2 & H3 & H4). unfold effect_names in *.
  repeat (split; [assumption|]). cbn [set_buffs se_buffs]. split; [|split].
  - intros n a I G. rewrite H4. destruct (in_dec string_dec n (ef_names e)); [rewrite G; reflexivity | contradiction].
  - intros n I. rewrite H4. destruct (in_dec string_dec n (ef_names e)); [contradiction|].
    rewrite expire_effects_get by apply R. apply expired_cases.
  - reflexivity.
Qed.

Lemma compile_debuffs_spec st t s target st' e c :
  se_reachable st ->
  compile_debuffs (expire_status_effects t st) t s target = Ok (st', (e, c)) ->
  (forall n, In n (effect_names e) <-> counts (se_priority st) t s (get_debuffs st target) n)
  /\ sublist (effect_names e) (dkeys (get_debuffs st target))
  /\ (exists acts,
        Forall2 (fun n a => dget n (get_debuffs st target) = Some a) (effect_names e) acts
        /\ combined (map ac_spec acts) e
        /\ c = join ", " (map fst (filter (fun na => add_to_skill_modifier_condition (ac_spec (snd na)))
                                     (combine (effect_names e) acts))))
  /\ (forall n a, In n (effect_names e) -> dget n (get_debuffs st target) = Some a ->
        dget n (get_debuffs st' target) = Some (used a))
  /\ (forall n, ~ In n (effect_names e) ->
        match dget n (get_debuffs st target) with
        | Some a => (not_over t (ac_end a) /\ has_uses (ac_uses a) -> dget n (get_debuffs st' target) = Some a)
                    /\ (~ (not_over t (ac_end a) /\ has_uses (ac_uses a)) -> dget n (get_debuffs st' target) = None)
        | None => dget n (get_debuffs st' target) = None
        end)
  /\ se_buffs st' = se_buffs (expire_status_effects t st)
  /\ (forall x, x <> target -> get_debuffs st' x = get_debuffs (expire_status_effects t st) x).
Proof.
  intros R H. apply reachable_wf in R. unfold compile_debuffs in H. inv_bind H.
  destruct a as [d r]. injection H as <- ->. rewrite get_debuffs_expire in E. cbn [expire_status_effects se_priority] in E.
  apply compile_spec in E; [|apply R]. destruct E as (H1 & H2 & H3 & H4). unfold effect_names in *.
  repeat (split; [assumption|]). rewrite get_debuffs_set_debuffs, String.eqb_refl. split; [|split; [|split]].
  - intros n a I G. rewrite H4. destruct (in_dec string_dec n (ef_names e)); [rewrite G; reflexivity | contradiction].
  - intros n I. rewrite H4. destruct (in_dec string_dec n (ef_names e)); [contradiction|].
    rewrite expire_effects_get by apply R. apply expired_cases.
  - reflexivity.
  - intros x Nx. rewrite get_debuffs_set_debuffs. apply String.eqb_neq in Nx. rewrite Nx. reflexivity.
Qed.

(** ** Application *)

Lemma plus_ext a b : plus a b = ext_add a b.
Proof. destruct a, b; reflexivity. Qed.
Lemma shorter_ext a b : shorter a b = ext_min a b.
Proof. destruct a, b; reflexivity. Qed.
Lemma remaining_ext t e : remaining t e = ext_max0 (ext_subz e t).
Proof. destruct e; cbn; [rewrite Z.max_comm|]; reflexivity. Qed.

Lemma dget_add_effect d t name sp n :
  dget n (add_effect d t name sp) = if String.eqb n name then applied t sp (dget n d) else dget n d.
Proof.
  unfold add_effect, applied.
  destruct (String.eqb_spec n name) as [->|Nn].
  - destruct (dget name d) as [a|] eqn:G.
    + rewrite dget_dset_same. change plus with ext_add. rewrite !shorter_ext, remaining_ext. reflexivity.
    + destruct (extend_only sp); [exact G|]. rewrite dget_dset_same. reflexivity.
  - destruct (dget name d); [rewrite dget_dset_other by exact Nn; reflexivity|].
    destruct (extend_only sp); [reflexivity|]. rewrite dget_dset_other by exact Nn; reflexivity.
Qed.
Lemma dget_end_effect d name t n :
  dget n (end_effect d name t) = ended_if (String.eqb n name) t (dget n d).
Proof.
  unfold end_effect, ended_if. destruct (String.eqb_spec n name) as [->|Nn].
  - destruct (dget name d) eqn:G; [rewrite dget_dset_same; reflexivity | rewrite G; reflexivity].
  - destruct (dget name d); [rewrite dget_dset_other by exact Nn|]; reflexivity.
Qed.
Lemma ended_if_twice b1 b2 t o : ended_if b1 t (ended_if b2 t o) = ended_if (b1 || b2) t o.
Proof. destruct b1, b2, o as [a|]; reflexivity. Qed.

Lemma expire_named_buffs st name t target n :
  dget n (se_buffs (expire_named_effect st name t target)) = ended_if (String.eqb n name) t (dget n (se_buffs st)).
Proof.
  unfold expire_named_effect. destruct (dget name _); cbn [set_debuffs set_buffs se_buffs]; apply dget_end_effect.
Qed.
Lemma expire_named_debuffs st name t target x n :
  dget n (get_debuffs (expire_named_effect st name t target) x)
  = ended_if (String.eqb x target && String.eqb n name) t (dget n (get_debuffs st x)).
Proof.
  unfold expire_named_effect. rewrite get_debuffs_set_buffs. destruct (dget name (get_debuffs st target)) eqn:G.
  - rewrite get_debuffs_set_debuffs, !get_debuffs_set_buffs. destruct (String.eqb_spec x target) as [->|]; [|reflexivity].
    apply dget_end_effect.
  - rewrite get_debuffs_set_buffs. destruct (String.eqb_spec x target) as [->|]; [|reflexivity].
    destruct (String.eqb_spec n name) as [->|]; [|reflexivity]. rewrite G. reflexivity.
Qed.
Lemma expire_list_buffs ns : forall st t target n,
  dget n (se_buffs (fold_left (fun s k => expire_named_effect s k t target) ns st))
  = ended_if (smem n ns) t (dget n (se_buffs st)).
Proof.
  induction ns as [|k ns IH]; intros st t target n; cbn [fold_left smem existsb]; [reflexivity|].
  rewrite IH, expire_named_buffs, ended_if_twice. rewrite orb_comm. reflexivity.
Qed.
Lemma expire_list_debuffs ns : forall st t target x n,
  dget n (get_debuffs (fold_left (fun s k => expire_named_effect s k t target) ns st) x)
  = ended_if (String.eqb x target && smem n ns) t (dget n (get_debuffs st x)).
Proof.
  induction ns as [|k ns IH]; intros st t target x n; cbn [fold_left smem existsb].
  - rewrite andb_false_r. reflexivity.
  - rewrite IH, expire_named_debuffs, ended_if_twice. f_equal. unfold smem.
    destruct (String.eqb x target); cbn; [apply orb_comm | reflexivity].
Qed.

Lemma apply_buff_buffs st t name sp n :
  dget n (se_buffs (apply_buff st t name sp))
  = hit_by t name sp n (if clear_all_status_effects sp then None else dget n (se_buffs st)).
Proof.
  unfold apply_buff, hit_by. rewrite expire_list_buffs. f_equal. cbn [set_buffs se_buffs]. rewrite dget_add_effect.
  destruct (clear_all_status_effects sp); reflexivity.
Qed.
Lemma apply_buff_debuffs st t name sp x n :
  dget n (get_debuffs (apply_buff st t name sp) x)
  = ended_if (String.eqb x DEFAULT_TARGET && smem n (expires_status_effects sp)) t (dget n (get_debuffs st x)).
Proof. unfold apply_buff. rewrite expire_list_debuffs. reflexivity. Qed.
Lemma apply_debuff_buffs st t name sp x n :
  dget n (se_buffs (apply_debuff t name sp st x))
  = ended_if (smem n (expires_status_effects sp)) t (dget n (se_buffs st)).
Proof. unfold apply_debuff. rewrite expire_list_buffs. reflexivity. Qed.
Lemma apply_debuff_debuffs st t name sp x y n :
  dget n (get_debuffs (apply_debuff t name sp st x) y)
  = if String.eqb y x then hit_by t name sp n (dget n (get_debuffs st y)) else dget n (get_debuffs st y).
Proof.
  unfold apply_debuff, hit_by. rewrite expire_list_debuffs, get_debuffs_set_debuffs.
  destruct (String.eqb_spec y x) as [->|]; [|reflexivity]. cbn [andb]. f_equal. apply dget_add_effect.
Qed.

Lemma apply_debuffs_buffs targets : forall st t name sp n,
  dget n (se_buffs (fold_left (apply_debuff t name sp) targets st))
  = ended_if (match targets with [] => false | _ => smem n (expires_status_effects sp) end) t (dget n (se_buffs st)).
Proof.
  induction targets as [|x l IH]; intros st t name sp n; cbn [fold_left]; [reflexivity|].
  rewrite IH, apply_debuff_buffs, ended_if_twice. f_equal. destruct l; [reflexivity | apply orb_diag].
Qed.
Lemma iter_S_r {A} n (f : A -> A) x : Nat.iter (S n) f x = Nat.iter n f (f x).
Proof. induction n as [|n IH]; [reflexivity|]. cbn in *. rewrite IH. reflexivity. Qed.
Lemma apply_debuffs_debuffs targets : forall st t name sp x n,
  dget n (get_debuffs (fold_left (apply_debuff t name sp) targets st) x)
  = Nat.iter (count_occ string_dec targets x) (hit_by t name sp n) (dget n (get_debuffs st x)).
Proof.
  induction targets as [|y l IH]; intros st t name sp x n; cbn [fold_left count_occ]; [reflexivity|].
  rewrite IH, apply_debuff_debuffs.
  destruct (string_dec y x) as [->|N].
  - rewrite String.eqb_refl. rewrite iter_S_r. reflexivity.
  - assert (F : String.eqb x y = false) by (apply String.eqb_neq; congruence). rewrite F. reflexivity.
Qed.

Lemma add_to_status_effects_spec st t s m targets buff debuff :
  get_buff_spec s m = Ok buff -> get_debuff_spec s m = Ok debuff ->
  exists st', add_to_status_effects st t s m targets = Ok st'
  /\ se_priority st' = se_priority st
  /\ (forall n, dget n (se_buffs st')
       = ended_if match debuff, targets with
                  | Some sp, _ :: _ => smem n (expires_status_effects sp)
                  | _, _ => false
                  end t
           (match buff with
            | Some sp => hit_by t (sk_name s) sp n (if clear_all_status_effects sp then None else dget n (se_buffs st))
            | None => dget n (se_buffs st)
            end))
  /\ (forall x n, dget n (get_debuffs st' x)
       = let old := ended_if match buff with
                             | Some sp => String.eqb x DEFAULT_TARGET && smem n (expires_status_effects sp)
                             | None => false
                             end t (dget n (get_debuffs st x)) in
         match debuff with
         | Some sp => Nat.iter (count_occ string_dec targets x) (hit_by t (sk_name s) sp n) old
         | None => old
         end).
Proof.
  intros Hb Hd. unfold add_to_status_effects. rewrite Hb, Hd. cbn [bind]. eexists. split; [reflexivity|].
  assert (P1 : forall st n t0 tg, se_priority (expire_named_effect st n t0 tg) = se_priority st).
  { intros. unfold expire_named_effect. destruct (dget n _); reflexivity. }
  assert (P2 : forall l st t0 tg, se_priority (fold_left (fun s n => expire_named_effect s n t0 tg) l st) = se_priority st).
  { induction l as [|k l IH]; intros; cbn; [reflexivity|]. rewrite IH. apply P1. }
  split; [|split].
  - assert (P3 : se_priority (match buff with Some sp => apply_buff st t (sk_name s) sp | None => st end) = se_priority st)
      by (destruct buff; [unfold apply_buff; rewrite P2|]; reflexivity).
    destruct debuff as [sp|]; [|exact P3]. rewrite <- P3.
    generalize (match buff with Some sp => apply_buff st t (sk_name s) sp | None => st end).
    induction targets as [|x l IH]; intros st1; cbn; [reflexivity|]. rewrite IH. unfold apply_debuff. rewrite P2. reflexivity.
  - intros n. destruct debuff as [sp|].
    + rewrite apply_debuffs_buffs. destruct buff as [bp|]; [rewrite apply_buff_buffs|]; destruct targets; reflexivity.
    + destruct buff as [bp|]; [rewrite apply_buff_buffs|]; reflexivity.
  - intros x n. destruct debuff as [sp|].
    + rewrite apply_debuffs_debuffs. destruct buff as [bp|]; [rewrite apply_buff_debuffs|]; reflexivity.
    + destruct buff as [bp|]; [rewrite apply_buff_debuffs|]; reflexivity.
Qed.

(** ** Uses *)

Lemma reachable_step st op st' : se_reachable st -> se_apply st op = Ok st' -> se_reachable st'.
Proof.
  intros (prio & ops & H) E. exists prio, (ops ++ [op])%list. rewrite foldM_app, H. cbn. rewrite E. reflexivity.
Qed.

(** What is known of [name]'s record after [n] uses, at time [t]. *)
Definition use_inv (a : active) (t n : Z) (o : option active) : Prop :=
  match o with
  | Some b => ac_start b = ac_start a /\ ac_end b = ac_end a /\ ac_spec b = ac_spec a /\ ac_uses b = ext_subz (ac_uses a) n
              /\ match ac_uses a with Fin k => n <= k | Inf => True end
  | None => ~ uses_left (ac_uses a) n \/ (exists x, ac_end a = Fin x /\ x < t)
  end.

Lemma use_run_inv name l : forall t st, use_run name t st l -> forall a n,
  se_reachable st -> 0 <= n -> use_inv a t n (dget name (se_buffs st)) ->
  forall l1 st1 t1 s b l2, l = (l1 ++ (st1, t1, s, b) :: l2)%list ->
  (b = true <-> wanted st1 t1 s name a /\ uses_left (ac_uses a) (n + times_used l1)).
Proof.
  intros t st R. induction R as [t st|t st st' l Rs G R IH|t t' s st st' e c l Ht C R IH];
    intros a n Re Hn I l1 st1 t1 s1 b l2 El.
  - destruct l1; discriminate.
  - eapply IH; [exact Rs | exact Hn | rewrite G; exact I | exact El].
  - assert (I' : use_inv a t' n (dget name (se_buffs st))).
    { unfold use_inv in *. destruct (dget name (se_buffs st)); [exact I|].
      destruct I as [I|(x & Ex & Hx)]; [left; exact I | right; exists x; split; [exact Ex | lia]]. }
    pose proof (compile_buffs_spec _ _ _ _ _ _ Re C) as (Hc & _ & _ & Hu & Hnu & _).
    assert (Hin : In name (effect_names e) <-> wanted st t' s name a /\ uses_left (ac_uses a) n).
    { rewrite Hc. unfold counts, wanted. unfold use_inv in I'. split.
      - intros ((b0 & G & E1 & E2 & E3 & E4 & E5) & Ns). rewrite G in I'. destruct I' as (I1 & I2 & I3 & I4 & I5).
        rewrite <- I1, <- I2, <- I3. split; [repeat (split; [assumption|]); assumption|].
        unfold has_uses in E3. rewrite I4 in E3. destruct (ac_uses a) as [k|]; cbn in *; [|exact Logic.I].
        assert (k - n <> 0) by congruence. lia.
      - intros ((W1 & W2 & W3 & W4 & W5) & L). destruct (dget name (se_buffs st)) as [b0|] eqn:G.
        + destruct I' as (I1 & I2 & I3 & I4 & I5). split; [|exact W5]. exists b0. split; [reflexivity|].
          unfold eligible. rewrite I1, I2, I3. repeat (split; [assumption|]). split; [|split; assumption].
          unfold has_uses. rewrite I4. destruct (ac_uses a) as [k|]; cbn in *; [|discriminate].
          intros Q0. injection Q0 as Q0. lia.
        + exfalso. destruct I' as [I'|(x & Ex & Hx)]; [contradiction|]. rewrite Ex in W2. cbn in W2. lia. }
    destruct l1 as [|y l1]; cbn in El.
    + injection El as <- <- <- <- <-. rewrite smem_spec. rewrite Hin.
      change (times_used []) with 0. rewrite Z.add_0_r. reflexivity.
    + injection El as <- El.
      assert (Re' : se_reachable st').
      { eapply reachable_step; [eapply reachable_step; [exact Re | exact (eq_refl : se_apply st (SeExpire t') = _)]|].
        instantiate (1 := SeBuffs t' s). cbn [se_apply]. rewrite C. reflexivity. }
      set (n' := if smem name (effect_names e) then n + 1 else n).
      assert (Tn : forall l1, n' + times_used l1 = n + times_used ((st, t', s, smem name (effect_names e)) :: l1)).
      { intros l0. unfold n', times_used. cbn [filter snd]. destruct (smem name (effect_names e)); cbn [List.length]; lia. }
      rewrite <- Tn. eapply IH; [exact Re' | unfold n'; destruct (smem name (effect_names e)); lia | | exact El].
      unfold n'. destruct (smem name (effect_names e)) eqn:Sm.
      * apply smem_spec in Sm. pose proof (proj1 Hin Sm) as [W L]. apply Hc in Sm as Cn.
        destruct Cn as ((b0 & G & _) & _). rewrite (Hu _ _ Sm G). rewrite G in I'. cbn in *.
        destruct I' as (I1 & I2 & I3 & I4 & I5). repeat (split; [assumption|]). rewrite I4.
        destruct (ac_uses a) as [k|]; cbn in *; [split; [f_equal; lia | lia] | split; [reflexivity | exact Logic.I]].
      * apply smem_false in Sm. specialize (Hnu _ Sm). destruct (dget name (se_buffs st)) as [b0|] eqn:G; [|rewrite Hnu; exact I'].
        destruct I' as (I1 & I2 & I3 & I4 & I5). rewrite I2, I4 in Hnu. destruct Hnu as [Hnu1 Hnu2].
        destruct (z_gt_ext t' (ac_end a)) eqn:Z1.
        { rewrite Hnu2. - cbn. right. destruct (ac_end a) as [x|]; [|discriminate]. cbn in Z1. apply Z.ltb_lt in Z1. eauto.
          - intros [No _]. apply z_gt_ext_false in No. congruence. }
        destruct (ext_is0 (ext_subz (ac_uses a) n)) eqn:Z2.
        { rewrite Hnu2.
          - left. unfold ext_is0 in Z2. destruct (ac_uses a) as [k|]; [|discriminate]. cbn in *. apply Z.eqb_eq in Z2. lia.
          - intros [_ No]. apply ext_is0_false in No. congruence. }
        rewrite Hnu1; [cbn; auto|]. split; [apply z_gt_ext_false | apply ext_is0_false]; assumption.
Qed.

(** ** Corollaries stated in PropsStatus.v *)

Lemma reapply_spec st t s m targets sp a st' :
  get_buff_spec s m = Ok (Some sp) -> get_debuff_spec s m = Ok None ->
  ~ In (sk_name s) (expires_status_effects sp) -> clear_all_status_effects sp = false ->
  dget (sk_name s) (se_buffs st) = Some a ->
  add_to_status_effects st t s m targets = Ok st' ->
  exists a', dget (sk_name s) (se_buffs st') = Some a'
  /\ ac_start a' = ac_start a /\ ac_spec a' = sp
  /\ (extends_existing_duration sp = true ->
      ac_end a' = plus (Fin t) (shorter (max_duration sp) (plus (remaining t (ac_end a)) (duration sp))))
  /\ (extends_existing_duration sp = false -> ac_end a' = plus (Fin t) (remaining t (ac_end a)))
  /\ ac_uses a' = shorter (plus (ac_uses a) (num_uses sp)) (max_num_uses sp)
  /\ (forall n, n <> sk_name s -> ~ In n (expires_status_effects sp) ->
        dget n (se_buffs st') = dget n (se_buffs st)).
Proof.
  intros Hb Hd Ne Nc G H.
  destruct (add_to_status_effects_spec st t s m targets _ _ Hb Hd) as (st1 & E & _ & B & _).
  rewrite E in H. injection H as ->. eexists. split.
  - rewrite B. unfold hit_by. rewrite Nc, G, String.eqb_refl. apply smem_false in Ne. rewrite Ne. cbn [ended_if applied]. reflexivity.
  - cbn [ac_start ac_spec ac_end ac_uses]. repeat (split; [reflexivity|]). split; [intros ->; reflexivity|].
    split; [intros ->; reflexivity|]. split; [reflexivity|].
    intros n Nn Nx. rewrite B. unfold hit_by. rewrite Nc. apply smem_false in Nx. rewrite Nx. apply String.eqb_neq in Nn. rewrite Nn. reflexivity.
Qed.

Lemma extend_only_spec st t s m targets sp st' :
  get_buff_spec s m = Ok (Some sp) -> get_debuff_spec s m = Ok None -> extend_only sp = true ->
  dget (sk_name s) (se_buffs st) = None ->
  add_to_status_effects st t s m targets = Ok st' ->
  dget (sk_name s) (se_buffs st') = None.
Proof.
  intros Hb Hd X G H.
  destruct (add_to_status_effects_spec st t s m targets _ _ Hb Hd) as (st1 & E & _ & B & _).
  rewrite E in H. injection H as ->. rewrite B. unfold hit_by. rewrite String.eqb_refl, G.
  destruct (clear_all_status_effects sp); unfold applied; rewrite X; destruct (smem _ _); reflexivity.
Qed.

Lemma n_uses_spec name t st l a l1 st1 t1 s used_now l2 :
  se_reachable st -> use_run name t st l ->
  dget name (se_buffs st) = Some a ->
  (forall k, ac_uses a = Fin k -> 0 <= k) ->
  l = (l1 ++ (st1, t1, s, used_now) :: l2)%list ->
  (used_now = true <-> wanted st1 t1 s name a /\ uses_left (ac_uses a) (times_used l1)).
Proof.
  intros R U G K El. change (times_used l1) with (0 + times_used l1).
  eapply use_run_inv; [exact U | exact R | lia | | exact El]. rewrite G. cbn. repeat (split; [reflexivity|]).
  destruct (ac_uses a) as [k|]; cbn; [split; [f_equal; lia | apply K; reflexivity] | auto].
Qed.

Lemma debuff_isolation st t s m targets st' x :
  se_reachable st ->
  get_buff_spec s m = Ok None ->
  add_to_status_effects st t s m targets = Ok st' -> ~ In x targets ->
  forall n, dget n (get_debuffs st' x) = dget n (get_debuffs st x).
Proof.
  intros _ Hb H N n. pose proof H as H0. unfold add_to_status_effects in H0. rewrite Hb in H0. cbn [bind] in H0.
  inv_bind H0. destruct (add_to_status_effects_spec st t s m targets _ _ Hb E) as (st1 & E1 & _ & _ & D).
  rewrite E1 in H. injection H as ->. rewrite D. cbn [ended_if]. destruct a as [sp|]; [|reflexivity].
  apply (count_occ_not_In string_dec) in N. rewrite N. reflexivity.
Qed.
Lemma compile_debuffs_isolation st t s target st' r :
  compile_debuffs st t s target = Ok (st', r) ->
  se_buffs st' = se_buffs st /\ forall x, x <> target -> get_debuffs st' x = get_debuffs st x.
Proof.
  intros H. unfold compile_debuffs in H. inv_bind H. destruct a as [d r']. injection H as <- _. split; [reflexivity|].
  intros x N. rewrite get_debuffs_set_debuffs. apply String.eqb_neq in N. rewrite N. reflexivity.
Qed.

Definition cx_weaken : skill :=
  mkSkill "Weaken" CNone CNone CNone
    (COne (mkStatus (Fin 15000) (Fin 15000) Inf Inf 0 0 1 0 1 0 0 (Fin 0) 0 true [] None
       F_DEFAULT F_DEFAULT false false false false)) CNone (TTuple []) (TTuple []) [] false [] true (TTuple []) "".
Definition cx_cleanse : skill :=
  mkSkill "Cleanse" CNone CNone
    (COne (mkStatus (Fin 15000) (Fin 15000) Inf Inf 0 0 1 0 1 0 0 (Fin 0) 0 true ["Weaken"%string] None
       F_DEFAULT F_DEFAULT false false false false)) CNone CNone (TTuple []) (TTuple []) [] false [] true (TTuple []) "".
Definition cx_ops : list se_op := [SeApply 0 cx_weaken default_modifier [DEFAULT_TARGET]].
Lemma buff_isolation_refuted :
  ~ (forall st t s m targets st' x n,
       se_reachable st -> get_debuff_spec s m = Ok None ->
       add_to_status_effects st t s m targets = Ok st' -> ~ In x targets ->
       dget n (get_debuffs st' x) = dget n (get_debuffs st x)).
Proof.
  intros H.
  destruct (foldM se_apply cx_ops (se_init [])) as [st|] eqn:E; [|vm_compute in E; discriminate].
  destruct (add_to_status_effects st 100 cx_cleanse default_modifier ["Boss"%string]) as [st'|] eqn:E2;
    [|vm_compute in E; injection E as <-; vm_compute in E2; discriminate].
  assert (R : se_reachable st) by (exists [], cx_ops; exact E).
  specialize (H st 100 cx_cleanse default_modifier ["Boss"%string] st' DEFAULT_TARGET "Weaken"%string R eq_refl E2).
  vm_compute in E. injection E as <-. vm_compute in E2. injection E2 as <-.
  vm_compute in H.
  discriminate H. intros [Q0|[]]. discriminate.
Qed.
