(** * Further buffs in the damage builder (C86) *)

From Coq Require Import ZArith QArith Qreduction List String Bool Lia Lqa Permutation.
From Verif Require Import Base BaseFacts Heap HeapFacts Float FloatFacts Strings Types Lookup StatusEffect StatusFacts JobResource Combo Stats
  Library Events EventsFacts SpecQueue Rotation DamageBuild SpecTimeline SpecGame SafeFacts TargetFacts SpecIdle IdleFacts LaterFacts SpecCause CauseFacts SpecBuff.
Import ListNotations.
Open Scope string_scope.
Open Scope Z_scope.

(** ** Doubles *)
Definition double (x : Q) : Prop := fl x = x.
Lemma fl_red x : Qred (fl x) = fl x.
Proof. unfold fl. destruct (Qeq_bool x 0); [reflexivity|]. cbv zeta. apply Qred_complete, Qred_correct. Qed.
Lemma double_fl x : double (fl x).
Proof. unfold double. rewrite <- (fl_red (fl x)). transitivity (Qred (fl x)); [apply Qred_complete, fl_idem | apply fl_red]. Qed.
Lemma double_0 : double 0. Proof. reflexivity. Qed.
Lemma double_1 : double 1. Proof. vm_compute. reflexivity. Qed.
Lemma fmul_1 x : double x -> fmul x 1 = x.
Proof. intros D. unfold fmul. replace (x * 1)%Q with x; [exact D|]. destruct x as [n d]. unfold Qmult. cbn [Qnum Qden]. rewrite Z.mul_1_r, Pos.mul_1_r. reflexivity. Qed.
Lemma fsub_10 : fsub 1 0 = 1%Q. Proof. vm_compute. reflexivity. Qed.
Lemma fadd_up x a : double x -> (0 <= a)%Q -> (x <= fadd x a)%Q.
Proof. intros D A. unfold fadd. apply fl_ge_of; [rewrite D; reflexivity|lra]. Qed.
Lemma fmul_up x a : double x -> (0 <= x -> 1 <= a -> x <= fmul x a)%Q.
Proof. intros D X A. unfold fmul. apply fl_ge_of; [rewrite D; reflexivity|]. rewrite <- (Qmult_1_r x) at 1. rewrite (Qmult_comm x 1), (Qmult_comm x a). apply Qmult_le_compat_r; assumption. Qed.

Section Extra.
Variable extra : string -> bool.

(** ** Leaving the extra effects out of a dictionary *)
Definition keep (kv : string * active) : bool := negb (extra (fst kv)).
Definition drop (d : dict active) : dict active := filter keep d.

Lemma drop_get k d : dget k (drop d) = if extra k then None else dget k d.
Proof.
  induction d as [|[k' v] d IH]; [cbn; destruct (extra k); reflexivity|]. unfold drop in *. cbn [filter dget]. unfold keep at 1. cbn [fst].
  destruct (extra k') eqn:E; cbn [negb dget].
  - rewrite IH. destruct (String.eqb_spec k k') as [->|]; [rewrite E; reflexivity|reflexivity].
  - destruct (String.eqb_spec k k') as [->|]; [rewrite E; reflexivity|exact IH].
Qed.
Lemma drop_set k v d : drop (dset k v d) = if extra k then drop d else dset k v (drop d).
Proof.
  induction d as [|[k' v'] d IH]; unfold drop in *; cbn [dset filter].
  - unfold keep. cbn [fst]. destruct (extra k); reflexivity.
  - assert (K : forall w, keep (k', w) = negb (extra k')) by reflexivity.
    destruct (String.eqb_spec k k') as [->|N]; cbn [filter]; rewrite !K; destruct (extra k') eqn:E; cbn [negb].
    + reflexivity.
    + cbn [dset]. rewrite String.eqb_refl. reflexivity.
    + exact IH.
    + rewrite IH. destruct (extra k); [reflexivity|]. cbn [dset]. destruct (String.eqb_spec k k'); [contradiction|reflexivity].
Qed.
Lemma filter_comm {A} (f g : A -> bool) l : filter f (filter g l) = filter g (filter f l).
Proof. induction l as [|x l IH]; [reflexivity|]. cbn. destruct (f x) eqn:F, (g x) eqn:G; cbn; rewrite ?F, ?G, IH; reflexivity. Qed.
Lemma drop_expire t d : drop (expire_effects t d) = expire_effects t (drop d).
Proof. apply filter_comm. Qed.
Lemma drop_add k t sp d : drop (add_effect d t k sp) = if extra k then drop d else add_effect (drop d) t k sp.
Proof.
  unfold add_effect. rewrite drop_get. destruct (extra k) eqn:E.
  - destruct (dget k d); [rewrite drop_set, E; reflexivity|]. destruct (extend_only sp); [reflexivity|rewrite drop_set, E; reflexivity].
  - destruct (dget k d); [rewrite drop_set, E; reflexivity|]. destruct (extend_only sp); [reflexivity|rewrite drop_set, E; reflexivity].
Qed.
Lemma drop_end k t d : drop (end_effect d k t) = if extra k then drop d else end_effect (drop d) k t.
Proof.
  unfold end_effect. rewrite drop_get. destruct (extra k) eqn:E; (destruct (dget k d); [rewrite drop_set, E; reflexivity|reflexivity]).
Qed.

(** ** Dictionaries whose extra effects help and whose others do not count extra names *)
Definition fine (k : string) (a : active) : Prop :=
  if extra k then supportive (ac_spec a) else (0 <= damage_mult (ac_spec a))%Q /\ forall n, extra n = true -> quiet_active n a.
Definition good (d : dict active) : Prop := NoDup (dkeys d) /\ Forall (fun kv => fine (fst kv) (snd kv)) d.
Lemma good_nil : good []. Proof. split; constructor. Qed.
Lemma good_set k a d : good d -> fine k a -> good (dset k a d).
Proof.
  intros (N & F) A. split; [apply dset_nodup, N|]. rewrite Forall_forall in *. intros x I. apply dset_in in I as [->|I]; [exact A|apply F, I].
Qed.
Lemma good_get k a d : good d -> dget k d = Some a -> fine k a.
Proof. intros (_ & F) E. apply dget_in in E. rewrite Forall_forall in F. exact (F _ E). Qed.
Lemma good_filter f d : good d -> good (filter f d).
Proof.
  intros (N & F). split; [apply filter_nodup_keys, N|]. apply Forall_forall. intros x I. apply filter_In in I as (I & _). rewrite Forall_forall in F. apply F, I.
Qed.
Lemma fine_spec k a b : fine k a -> ac_spec b = ac_spec a -> ac_uses b = ac_uses a \/ (ac_uses a = Inf -> ac_uses b = Inf) -> fine k b.
Proof.
  unfold fine. intros F E U. destruct (extra k); [rewrite E; exact F|]. rewrite E. split; [apply F|]. intros n X. destruct F as (_ & F).
  destruct (F n X) as [Q|Q]; [left; destruct U as [U|U]; [congruence|auto]|right; rewrite E; exact Q].
Qed.
Lemma good_add k t sp d : good d -> (if extra k then supportive sp else (0 <= damage_mult sp)%Q /\ forall n, extra n = true -> uses_apart n sp) ->
  good (add_effect d t k sp).
Proof.
  intros G S. unfold add_effect. destruct (dget k d) as [prev|] eqn:E.
  - apply good_set; [exact G|]. unfold fine. destruct (extra k); [exact S|]. split; [apply S|]. intros n X. destruct S as (_ & S).
    destruct (S n X) as [(U1 & U2)|U]; [left|right; exact U]. cbn. rewrite U1, U2. destruct (ac_uses prev); reflexivity.
  - destruct (extend_only sp); [exact G|]. apply good_set; [exact G|]. unfold fine. destruct (extra k); [exact S|]. split; [apply S|]. intros n X.
    destruct S as (_ & S). destruct (S n X) as [(U1 & U2)|U]; [left; exact U1|right; exact U].
Qed.
Lemma good_end k t d : good d -> good (end_effect d k t).
Proof.
  intros G. unfold end_effect. destruct (dget k d) as [a|] eqn:E; [|exact G]. apply good_set; [exact G|].
  apply (fine_spec k a); [exact (good_get _ _ _ G E)|reflexivity|left; reflexivity].
Qed.

(** ** Compiling *)
Definition clean (l : list string) : Prop := forall n, In n l -> extra n = false.
Definition kept (n : string) : bool := negb (extra n).
Lemma smem_kept p l : extra p = false -> smem p (filter kept l) = smem p l.
Proof.
  intros E. unfold smem. induction l as [|x l IH]; [reflexivity|]. cbn. unfold kept at 1. destruct (extra x) eqn:X; cbn.
  - rewrite IH. destruct (String.eqb_spec p x); [congruence|reflexivity].
  - rewrite IH. reflexivity.
Qed.
Lemma remove_kept p l : extra p = false -> remove_first p (filter kept l) = filter kept (remove_first p l).
Proof.
  intros E. induction l as [|x l IH]; [reflexivity|]. cbn. unfold kept at 1. destruct (extra x) eqn:X; cbn.
  - rewrite IH. destruct (String.eqb_spec p x) as [->|]; [congruence|]. cbn. unfold kept at 2. rewrite X. reflexivity.
  - destruct (String.eqb p x) eqn:P; [reflexivity|]. cbn. unfold kept at 2. rewrite X, IH. reflexivity.
Qed.
Lemma lower_kept prio l : clean prio -> delete_lower_priority prio (filter kept l) = filter kept (delete_lower_priority prio l).
Proof.
  induction prio as [|p rest IH]; intros C; [reflexivity|]. cbn. rewrite smem_kept by (apply C; left; reflexivity).
  assert (R : clean rest) by (intros n I; apply C; right; exact I). destruct (smem p l); [|apply IH, R].
  clear IH C. revert l. induction rest as [|x rest IH]; intros l; [reflexivity|]. cbn. rewrite remove_kept by (apply R; left; reflexivity).
  apply IH. intros n I. apply R. right. exact I.
Qed.
Lemma valid_kept t d deny n : valid_status_effects t (drop d) deny n = filter kept (valid_status_effects t d deny n).
Proof.
  unfold valid_status_effects, drop. rewrite filter_comm. generalize (filter (valid_effect t deny n) d). intros l.
  induction l as [|[k a] l IH]; [reflexivity|]. cbn. unfold keep at 1, kept at 1. cbn [fst]. destruct (extra k); cbn; rewrite IH; reflexivity.
Qed.

(** What the sums of effects are made of. *)
Definition doubles (e : status_effects) : Prop :=
  double (ef_crit_rate_add e) /\ double (ef_dh_rate_add e) /\ double (ef_damage_mult e) /\ double (ef_main_stat_add e) /\ double (ef_main_stat_mult e)
  /\ double (ef_auto_delay_mult e) /\ double (ef_haste_mult e).
Definition below (e e' : status_effects) : Prop := boosted e e' /\ (0 <= ef_damage_mult e)%Q /\ doubles e'.
Lemma below_none : below no_effects no_effects.
Proof.
  split; [|split].
  - unfold boosted. repeat split; apply Qle_refl.
  - cbn. discriminate.
  - unfold doubles. cbn. repeat split; first [apply double_0|apply double_1].
Qed.
Lemma forced_default f : merge_forced f F_DEFAULT = Ok f. Proof. reflexivity. Qed.
Lemma ext_add_0 x : ext_add x (Fin 0) = x. Proof. destruct x; cbn; [rewrite Z.add_0_r|]; reflexivity. Qed.
Lemma merge_doubles e sp e1 : merge_effect e sp = Ok e1 -> doubles e1.
Proof.
  unfold merge_effect. intros H. apply bind_ok in H as (c & _ & H). apply bind_ok in H as (h & _ & H). injection H as <-.
  unfold doubles. cbn. repeat split; apply double_fl.
Qed.
Lemma merge_extra e e' sp : below e e' -> supportive sp -> exists e1, merge_effect e' sp = Ok e1 /\ below e e1.
Proof.
  intros (B & P & D) S. pose proof D as (D1 & D2 & D3 & D4 & D5 & D6 & D7). destruct B as ((B1 & B2 & B3 & B4) & B5 & B6 & B7 & B8 & B9 & B10 & B11).
  destruct S as ((S1 & S2 & S3 & S4) & S5 & S6 & S7 & S8 & S9 & S10 & S11 & _).
  assert (M : merge_effect e' sp = Ok (mkEffects (fadd (ef_crit_rate_add e') (crit_rate_add sp)) (fadd (ef_dh_rate_add e') (dh_rate_add sp))
    (fmul (ef_damage_mult e') (damage_mult sp)) (fadd (ef_main_stat_add e') (main_stat_add sp)) (ef_main_stat_mult e') (ef_auto_delay_mult e')
    (ef_haste_mult e') (ef_flat_cast e') (ef_flat_gcd e') (ef_crit e') (ef_dh e') (ef_names e'))).
  { unfold merge_effect. rewrite S5, S6, S7, S8, S9, S10, S11, !forced_default. cbn [bind]. rewrite !fsub_10, !fmul_1, ext_add_0, Z.add_0_r by assumption. reflexivity. }
  eexists. split; [exact M|]. split; [|split; [exact P|exact (merge_doubles _ _ _ M)]].
  unfold boosted. cbn. split; [|repeat (split; [assumption|]); assumption].
  assert (P' : (0 <= ef_damage_mult e')%Q) by lra.
  pose proof (fadd_up _ _ D1 S1). pose proof (fadd_up _ _ D2 S2). pose proof (fmul_up _ _ D3 P' S3). pose proof (fadd_up _ _ D4 S4). repeat split; lra.
Qed.
Lemma merge_below e e' sp e1' : below e e' -> (0 <= damage_mult sp)%Q -> merge_effect e' sp = Ok e1' -> exists e1, merge_effect e sp = Ok e1 /\ below e1 e1'.
Proof.
  intros (B & P & D) S H. pose proof (merge_doubles _ _ _ H) as D'. destruct B as ((B1 & B2 & B3 & B4) & B5 & B6 & B7 & B8 & B9 & B10 & B11).
  unfold merge_effect in *. rewrite B5, B6, B7, B8, B9, B10, B11 in H. apply bind_ok in H as (c & Ec & H). apply bind_ok in H as (h & Eh & H). injection H as <-.
  rewrite Ec, Eh. cbn [bind]. eexists. split; [reflexivity|]. split; [|split; [cbn; apply fl_nonneg, Qmult_le_0_compat; assumption|exact D']].
  unfold boosted. cbn. split; [|repeat split].
  split; [apply fl_mono; lra|]. split; [apply fl_mono; lra|]. split; [apply fl_mono; apply Qmult_le_compat_r; assumption|apply fl_mono; lra].
Qed.

Lemma use_all names : forall d' e e' c x', good d' -> below e e' ->
  foldM use_effect names (d', e', c) = Ok x' ->
  exists x, foldM use_effect (filter kept names) (drop d', e, c) = Ok x
    /\ fst (fst x) = drop (fst (fst x')) /\ below (snd (fst x)) (snd (fst x')) /\ snd x' = snd x /\ good (fst (fst x')).
Proof.
  induction names as [|n names IH]; intros d' e e' c x' G B H.
  - cbn in H. injection H as <-. eexists. split; [reflexivity|]. repeat (split; [reflexivity || assumption|]). exact G.
  - cbn [foldM] in H. apply bind_ok in H as ([[d1 e1] c1] & U & H). unfold use_effect in U.
    apply bind_ok in U as (a & Ga & U). unfold of_option in Ga. destruct (dget n d') as [a0|] eqn:Gn; [|discriminate]. injection Ga as ->.
    apply bind_ok in U as (e2 & M & U). injection U as <- <- <-.
    pose proof (good_get _ _ _ G Gn) as Fa.
    set (a' := mkActive (ac_start a) (ac_end a) (ext_subz (ac_uses a) 1) (ac_spec a)) in *.
    assert (G1 : good (dset n a' d')).
    { apply good_set; [exact G|]. apply (fine_spec n a); [exact Fa|reflexivity|]. right. cbn. intros ->. reflexivity. }
    cbn [filter]. unfold kept at 1. unfold fine in Fa. destruct (extra n) eqn:X; cbn [negb].
    + destruct (merge_extra _ _ _ B Fa) as (e3 & M' & B'). rewrite M in M'. injection M' as <-.
      replace (add_to_skill_modifier_condition (ac_spec a)) with false in H by (destruct Fa as (_ & _ & _ & _ & _ & _ & _ & _ & Q & _); congruence).
      destruct (IH _ _ _ _ _ G1 B' H) as (x & F & R). rewrite drop_set, X in F. exists x. split; [exact F|exact R].
    + destruct (merge_below _ _ _ _ B (proj1 Fa) M) as (e3 & M' & B').
      destruct (IH _ _ _ _ _ G1 B' H) as (x & F & R). exists x. split; [|exact R]. cbn [foldM].
      assert (U : use_effect (drop d', e, c) n = Ok (drop (dset n a' d'), e3, if add_to_skill_modifier_condition (ac_spec a) then (c ++ [n])%list else c)).
      { unfold use_effect. rewrite drop_get, X, Gn. cbn [of_option bind]. rewrite M'. cbn [bind]. rewrite drop_set, X. reflexivity. }
      rewrite U. cbn [bind]. exact F.
Qed.

Lemma compile_extra_free prio t d' deny n d1' e1' c' : good d' -> clean prio ->
  compile_effects prio t d' deny n = Ok (d1', (e1', c')) ->
  exists e1, compile_effects prio t (drop d') deny n = Ok (drop d1', (e1, c')) /\ boosted e1 e1' /\ good d1'.
Proof.
  intros G C H. unfold compile_effects in *. rewrite valid_kept, lower_kept by exact C. apply bind_ok in H as ([[d2 e2] c2] & F & H). injection H as <- <- <-.
  destruct (use_all _ _ _ _ _ _ G below_none F) as ([[dx ex] cx] & Fx & D & B & Cx & G1). cbn [fst snd] in *. subst cx dx.
  rewrite Fx. cbn [bind]. eexists. split; [reflexivity|]. split; [exact (proj1 B)|exact G1].
Qed.

(** Compiling for an extra name touches extra effects only. *)
Lemma compile_for_extra prio t d deny n d1 r : good d -> extra n = true -> compile_effects prio t d deny n = Ok (d1, r) -> drop d1 = drop d /\ good d1.
Proof.
  intros G X H. unfold compile_effects in H. inv_bind H. destruct a as [[d2 e2] c2]. injection H as <- _.
  assert (N : NoDup (valid_status_effects t d deny n)) by (apply filter_nodup_keys, G).
  destruct (delete_lower_sub prio _ N) as (_ & I). set (names := delete_lower_priority prio _) in *. clearbody names.
  assert (V : forall x, In x names -> extra x = false -> exists a, dget x d = Some a /\ ac_uses a = Inf).
  { intros x Hx Ex. apply I in Hx. unfold valid_status_effects in Hx. apply in_map_iff in Hx as ([x' a] & <- & Hx).
    apply filter_In in Hx as (Hx & Va). cbn [fst] in Ex. exists a. assert (Gx : dget x' d = Some a) by (apply in_dget; [apply G|exact Hx]). split; [exact Gx|].
    pose proof (good_get _ _ _ G Gx) as F. unfold fine in F. rewrite Ex in F. destruct F as (_ & F).
    destruct (F n X) as [U|(l & L & U)]; [exact U|]. exfalso. unfold valid_effect in Va. apply andb_true_iff in Va as (_ & Va).
    cbn in Va. rewrite L in Va. apply U. apply smem_spec, Va. }
  revert E. apply (foldM_inv use_effect (fun x => drop (fst (fst x)) = drop d /\ good (fst (fst x)))); [split; [reflexivity|exact G]|].
  intros [[d3 e3] c3] x [[d4 e4] c4] Hx (Q1 & Q2) U. cbn [fst] in *. unfold use_effect in U. inv_bind U. inv_bind U. injection U as <- _ _.
  unfold of_option in E. destruct (dget x d3) as [ax|] eqn:Gx; [|discriminate E]. injection E as ->.
  split.
  - rewrite drop_set. destruct (extra x) eqn:Ex; [exact Q1|]. rewrite Q1. apply dset_same.
    destruct (V x Hx Ex) as (a' & Ga & Ua). rewrite drop_get, Ex, Ga. f_equal.
    assert (Y : dget x (drop d3) = dget x (drop d)) by (rewrite Q1; reflexivity). rewrite !drop_get, Ex, Gx, Ga in Y. injection Y as ->.
    destruct a' as [st en us sp]. cbn in *. subst us. reflexivity.
  - apply good_set; [exact Q2|]. apply (fine_spec x a); [exact (good_get _ _ _ Q2 Gx)|reflexivity|]. right. cbn. intros ->. reflexivity.
Qed.

(** ** Status effects of the two fights *)
Definition se_more (a b : se_tracker) : Prop :=
  se_priority b = se_priority a /\ clean (se_priority a)
  /\ drop (se_buffs b) = se_buffs a /\ (forall x, drop (get_debuffs b x) = get_debuffs a x)
  /\ good (se_buffs b) /\ (forall x, good (get_debuffs b x)).

Lemma more_expire t a b : se_more a b -> se_more (expire_status_effects t a) (expire_status_effects t b).
Proof.
  intros (P & C & B & D & G & H). split; [exact P|]. split; [exact C|]. split; [|split; [|split]].
  - cbn [expire_status_effects se_buffs]. rewrite drop_expire, B. reflexivity.
  - intros x. rewrite !get_expire, drop_expire, D. reflexivity.
  - cbn [expire_status_effects se_buffs]. apply good_filter, G.
  - intros x. rewrite get_expire. apply good_filter, H.
Qed.
Lemma expire_status_twice t t' a : t <= t' -> expire_status_effects t' (expire_status_effects t a) = expire_status_effects t' a.
Proof.
  intros L. unfold expire_status_effects. cbn [se_buffs se_debuffs se_priority]. f_equal; [apply expire_twice, L|].
  rewrite map_map. apply map_ext. intros [k v]. cbn [fst snd]. rewrite expire_twice by exact L. reflexivity.
Qed.
(** The two agree from [T] on. *)
Definition ahead (T : Z) (a b : se_tracker) : Prop := forall t, T <= t -> se_more (expire_status_effects t a) (expire_status_effects t b).
Lemma ahead_here T a b : se_more a b -> ahead T a b.
Proof. intros M t _. apply more_expire, M. Qed.
Lemma ahead_expired T a b : se_more (expire_status_effects T a) b -> ahead T a b.
Proof. intros M t L. rewrite <- (expire_status_twice T t a L). apply more_expire, M. Qed.

Lemma more_set_buffs a b d : se_more a b -> good d -> se_more (set_buffs a (drop d)) (set_buffs b d).
Proof. intros (P & C & B & D & G & H) Gd. repeat (split; [assumption || reflexivity|]). exact H. Qed.
Lemma more_set_debuffs a b x d : se_more a b -> good d -> se_more (set_debuffs a x (drop d)) (set_debuffs b x d).
Proof.
  intros (P & C & B & D & G & H) Gd. repeat (split; [assumption|]). split; [|split; [exact G|]]; intros y; rewrite !get_set; destruct (String.eqb y x); auto.
Qed.
Lemma more_set_buffs_r a b d : se_more a b -> good d -> drop d = drop (se_buffs b) -> se_more a (set_buffs b d).
Proof. intros (P & C & B & D & G & H) Gd E. repeat (split; [assumption|]). split; [exact (eq_trans E B)|]. repeat (split; [assumption|]). exact H. Qed.
Lemma more_set_debuffs_r a b x d : se_more a b -> good d -> drop d = drop (get_debuffs b x) -> se_more a (set_debuffs b x d).
Proof.
  intros (P & C & B & D & G & H) Gd E. repeat (split; [assumption|]).
  split; [|split; [exact G|]]; intros y; rewrite !get_set; destruct (String.eqb_spec y x) as [->|]; auto. rewrite E. apply D.
Qed.
Lemma more_set_debuffs_l a b x : se_more a b -> se_more (set_debuffs a x (get_debuffs a x)) b.
Proof.
  intros (P & C & B & D & G & H). repeat (split; [assumption|]). split; [|split; assumption]. intros y; rewrite !get_set.
  destruct (String.eqb_spec y x) as [->|]; apply D.
Qed.
Lemma end_absent d n t : dget n d = None -> end_effect d n t = d.
Proof. intros E. unfold end_effect. rewrite E. reflexivity. Qed.
Lemma more_end a b n t x : se_more a b -> se_more (expire_named_effect a n t x) (expire_named_effect b n t x).
Proof.
  intros M. unfold expire_named_effect. cbv zeta. pose proof M as (P & C & B & D & G & H).
  set (b1 := set_buffs b (end_effect (se_buffs b) n t)).
  assert (E1 : end_effect (se_buffs a) n t = drop (end_effect (se_buffs b) n t)).
  { rewrite drop_end. destruct (extra n) eqn:X; rewrite B; [|reflexivity]. apply end_absent. rewrite <- B, drop_get, X. reflexivity. }
  rewrite E1. assert (M1 : se_more (set_buffs a (drop (end_effect (se_buffs b) n t))) b1) by (apply more_set_buffs; [exact M|apply good_end, G]).
  change (get_debuffs (set_buffs a ?d) ?y) with (get_debuffs a y). change (get_debuffs b1 x) with (get_debuffs b x).
  pose proof (drop_get n (get_debuffs b x)) as Gx. rewrite D in Gx. destruct (extra n) eqn:X.
  - rewrite Gx. destruct (dget n (get_debuffs b x)); [|exact M1]. apply more_set_debuffs_r; [exact M1|apply good_end, H|]. rewrite drop_end, X. reflexivity.
  - rewrite Gx. destruct (dget n (get_debuffs b x)) eqn:Y; [|exact M1].
    replace (end_effect (get_debuffs a x) n t) with (drop (end_effect (get_debuffs b x) n t)) by (rewrite drop_end, X, D; reflexivity).
    apply more_set_debuffs; [exact M1|apply good_end, H].
Qed.
Lemma more_fold {A} (f : se_tracker -> A -> se_tracker) l : (forall a b x, se_more a b -> se_more (f a x) (f b x)) ->
  forall a b, se_more a b -> se_more (fold_left f l a) (fold_left f l b).
Proof. intros F. induction l as [|x l IH]; intros a b M; [exact M|]. cbn [fold_left]. apply IH, F, M. Qed.

Definition usual (sp : status_spec) : Prop := (0 <= damage_mult sp)%Q /\ forall n, extra n = true -> uses_apart n sp.
Lemma more_add a b t s m l x y : se_more a b -> extra (sk_name s) = false -> (forall sp, In sp (effects_of s) -> usual sp) ->
  add_to_status_effects a t s m l = Ok x -> add_to_status_effects b t s m l = Ok y -> se_more x y.
Proof.
  intros M X U. unfold add_to_status_effects. intros H H'.
  apply bind_ok in H as (bu & A & H). rewrite A in H'. cbn [bind] in H'. apply bind_ok in H as (de & A' & H). rewrite A' in H'. cbn [bind] in H'.
  injection H as <-. injection H' as <-.
  set (a1 := match bu with Some sp => apply_buff a t (sk_name s) sp | None => a end).
  set (b1 := match bu with Some sp => apply_buff b t (sk_name s) sp | None => b end).
  assert (M1 : se_more a1 b1).
  { subst a1 b1. destruct bu as [sp|]; [|exact M]. unfold apply_buff. cbv zeta. apply more_fold; [intros; apply more_end; assumption|].
    assert (Us : usual sp) by (apply U, in_or_app; left; exact (cspec_declared _ _ _ A)).
    assert (W : forall d d0 : dict active, good d -> d0 = drop d ->
      se_more (set_buffs a (add_effect d0 t (sk_name s) sp)) (set_buffs b (add_effect d t (sk_name s) sp))).
    { intros d d0 Gd ->. replace (add_effect (drop d) t (sk_name s) sp) with (drop (add_effect d t (sk_name s) sp)) by (rewrite drop_add, X; reflexivity).
      apply more_set_buffs; [exact M|]. apply good_add; [exact Gd|]. rewrite X. exact Us. }
    destruct (clear_all_status_effects sp); apply W; [apply good_nil|reflexivity|apply M|symmetry; apply M]. }
  clearbody a1 b1. destruct de as [sp|]; [|exact M1]. apply more_fold; [|exact M1]. clear a1 b1 M1. intros a1 b1 z M1.
  assert (Us : usual sp) by (apply U, in_or_app; right; exact (cspec_declared _ _ _ A')).
  unfold apply_debuff. apply more_fold; [intros; apply more_end; assumption|].
  pose proof M1 as (_ & _ & _ & D & _ & G).
  replace (add_effect (get_debuffs a1 z) t (sk_name s) sp) with (drop (add_effect (get_debuffs b1 z) t (sk_name s) sp)) by (rewrite drop_add, X, D; reflexivity).
  apply more_set_debuffs; [exact M1|]. apply good_add; [apply G|]. rewrite X. exact Us.
Qed.
Lemma more_add_extra a b t s m l y : se_more a b -> extra (sk_name s) = true -> (forall sp, In sp (effects_of s) -> supportive sp) ->
  add_to_status_effects b t s m l = Ok y -> se_more a y.
Proof.
  intros M X U. unfold add_to_status_effects. intros H'.
  apply bind_ok in H' as (bu & A & H'). apply bind_ok in H' as (de & A' & H'). injection H' as <-.
  set (b1 := match bu with Some sp => apply_buff b t (sk_name s) sp | None => b end).
  assert (M1 : se_more a b1).
  { subst b1. destruct bu as [sp|]; [|exact M]. unfold apply_buff. cbv zeta.
    assert (Us : supportive sp) by (apply U, in_or_app; left; exact (cspec_declared _ _ _ A)).
    pose proof Us as (_ & _ & _ & _ & _ & _ & _ & _ & _ & Ex & Cl). rewrite Ex, Cl. cbn [fold_left].
    apply more_set_buffs_r; [exact M| |rewrite drop_add, X; reflexivity]. apply good_add; [apply M|]. rewrite X. exact Us. }
  clearbody b1. destruct de as [sp|]; [|exact M1]. 
  assert (Us : supportive sp) by (apply U, in_or_app; right; exact (cspec_declared _ _ _ A')).
  apply fold_left_inv; [exact M1|]. clear b1 M1. intros b1 z _ M1. unfold apply_debuff.
  pose proof Us as (_ & _ & _ & _ & _ & _ & _ & _ & _ & Ex & Cl). rewrite Ex. cbn [fold_left].
  apply more_set_debuffs_r; [exact M1| |rewrite drop_add, X; reflexivity]. apply good_add; [apply M1|]. rewrite X. exact Us.
Qed.
Lemma more_compile_buffs a b t s x y : se_more a b -> compile_buffs a t s = Ok x -> compile_buffs b t s = Ok y ->
  se_more (fst x) (fst y) /\ boosted (fst (snd x)) (fst (snd y)) /\ snd (snd y) = snd (snd x).
Proof.
  intros M. unfold compile_buffs. pose proof M as (P & C & B & D & G & _). rewrite P. intros H H'.
  apply bind_ok in H' as ([d' [e' c']] & A' & H'). injection H' as <-.
  destruct (compile_extra_free _ _ _ _ _ _ _ _ G C A') as (e1 & A & Bo & G1). rewrite B in A. rewrite A in H. cbn [bind] in H. injection H as <-.
  cbn [fst snd]. split; [apply more_set_buffs; assumption|]. split; [exact Bo|reflexivity].
Qed.
Lemma more_compile_debuffs a b t s z x y : se_more a b -> compile_debuffs a t s z = Ok x -> compile_debuffs b t s z = Ok y ->
  se_more (fst x) (fst y) /\ boosted (fst (snd x)) (fst (snd y)) /\ snd (snd y) = snd (snd x).
Proof.
  intros M. unfold compile_debuffs. pose proof M as (P & C & B & D & _ & G). rewrite P. intros H H'.
  apply bind_ok in H' as ([d' [e' c']] & A' & H'). injection H' as <-.
  destruct (compile_extra_free _ _ _ _ _ _ _ _ (G z) C A') as (e1 & A & Bo & G1). rewrite D in A. rewrite A in H. cbn [bind] in H. injection H as <-.
  cbn [fst snd]. split; [apply more_set_debuffs; assumption|]. split; [exact Bo|reflexivity].
Qed.
Lemma extra_compile_buffs a b t s y : se_more a b -> extra (sk_name s) = true -> compile_buffs b t s = Ok y -> se_more a (fst y).
Proof.
  intros M X. unfold compile_buffs. intros H'. apply bind_ok in H' as ([d' r'] & A' & H'). injection H' as <-.
  pose proof M as (_ & _ & _ & _ & G & _). destruct (compile_for_extra _ _ _ _ _ _ _ G X A') as (E & G1). apply more_set_buffs_r; assumption.
Qed.
Lemma extra_compile_debuffs a b t s z y : se_more a b -> extra (sk_name s) = true -> compile_debuffs b t s z = Ok y -> se_more a (fst y).
Proof.
  intros M X. unfold compile_debuffs. intros H'. apply bind_ok in H' as ([d' r'] & A' & H'). injection H' as <-.
  pose proof M as (_ & _ & _ & _ & _ & G). destruct (compile_for_extra _ _ _ _ _ _ _ (G z) X A') as (E & G1). apply more_set_debuffs_r; assumption.
Qed.

(** ** Resources *)
Definition free (jr : jr_tracker) : Prop := forall n, extra n = true -> unasked n jr.
Lemma free_compile jr t s : free jr -> free (fst (compile_job_resources jr t s)).
Proof.
  intros F k X n cfg l I. unfold compile_job_resources in I. cbn [fst] in I. apply in_map_iff in I as ([n0 [cfg0 l0]] & I & I0).
  specialize (F k X _ _ _ I0). destruct (smem s (jrs_allowlist cfg0)); injection I as <- <- <-; exact F.
Qed.
Lemma free_add jr t s m jr' : free jr -> add_resource jr t s m = Ok jr' -> free jr'.
Proof. intros F H n X. exact (quiet_resources n _ _ _ _ _ (F n X) H). Qed.

Definition tk_more (a b : trackers) : Prop := se_more (tk_se a) (tk_se b) /\ tk_jr b = tk_jr a /\ tk_combo b = tk_combo a /\ free (tk_jr a).
Lemma more_conditional a b t s m k : tk_more a b ->
  tk_more (fst (resource_conditional a t s m k)) (fst (resource_conditional b t s m k))
  /\ snd (resource_conditional b t s m k) = snd (resource_conditional a t s m k).
Proof.
  intros (S & J & C & F). unfold resource_conditional. destruct k; [split; [repeat (split; [assumption|]); exact F|reflexivity]|]. rewrite J.
  pose proof (free_compile _ t (sk_name s) F) as F1.
  destruct (compile_job_resources (tk_jr a) t (sk_name s)) as [jr c]. split; [|reflexivity]. split; [exact S|]. split; [reflexivity|]. split; [exact C|exact F1].
Qed.
Lemma more_added a b t s m k x y : tk_more a b -> resources_added a t s m k = Ok x -> resources_added b t s m k = Ok y -> tk_more x y.
Proof.
  intros (S & J & C & F). unfold resources_added. destruct k.
  - intros H H'. injection H as <-. injection H' as <-. repeat (split; [assumption|]). exact F.
  - rewrite J. intros H H'. apply bind_ok in H as (jr & A & H). rewrite A in H'. cbn [bind] in H'. injection H as <-. injection H' as <-.
    split; [exact S|]. split; [reflexivity|]. split; [exact C|]. exact (free_add _ _ _ _ _ F A).
Qed.
Lemma more_combo a b t s m p x y : tk_more a b -> combo_and_positional a t s m p = Ok x -> combo_and_positional b t s m p = Ok y ->
  tk_more (fst x) (fst y) /\ snd y = snd x.
Proof.
  intros (S & J & C & F). unfold combo_and_positional. destruct p.
  - intros H H'. injection H as <-. injection H' as <-. split; [repeat (split; [assumption|]); exact F|reflexivity].
  - rewrite C. intros H H'. apply bind_ok in H as ([ct c] & A & H). rewrite A in H'. cbn [bind] in H'.
    apply bind_ok in H as (m' & A' & H). rewrite A' in H'. cbn [bind] in H'. injection H as <-. injection H' as <-.
    split; [|reflexivity]. split; [exact S|]. split; [exact J|]. split; [reflexivity|exact F].
Qed.
Lemma extra_conditional a b t s m k : tk_more a b -> extra (sk_name s) = true -> tk_more a (fst (resource_conditional b t s m k)).
Proof.
  intros (S & J & C & F) X. unfold resource_conditional. destruct k; [repeat (split; [assumption|]); exact F|].
  pose proof (asks_nothing (sk_name s) (tk_jr b) t) as Q. rewrite J in *. specialize (Q (F _ X)).
  destruct (compile_job_resources (tk_jr a) t (sk_name s)) as [jr c]. cbn [fst] in *. subst jr. split; [exact S|]. split; [reflexivity|]. split; assumption.
Qed.
Lemma extra_added a b t s m k y : tk_more a b -> support s -> resources_added b t s m k = Ok y -> tk_more a y.
Proof.
  intros T (Su & _). unfold resources_added. destruct k; [intros H; injection H as <-; exact T|].
  destruct (Su m) as (_ & _ & _ & R). unfold add_resource. rewrite R. cbn [bind foldM]. intros H. injection H as <-. destruct b; exact T.
Qed.
Lemma extra_combo a b t s m p y : tk_more a b -> support s -> combo_and_positional b t s m p = Ok y -> tk_more a (fst y).
Proof.
  intros T (Su & _). unfold combo_and_positional. destruct p; [intros H; injection H as <-; exact T|].
  destruct (Su m) as (_ & _ & R & _). unfold compile_and_update_combo. rewrite R. cbn [bind fold_left]. intros H. apply bind_ok in H as (m' & _ & H). injection H as <-.
  destruct b; exact T.
Qed.

(** ** Events *)
Definition snap_more (x y : snap) : Prop :=
  match x, y with SFlag f, SFlag g => f = g | SEff e, SEff e' => boosted e e' | _, _ => False end.
Definition lifted (e e' : event) : Prop :=
  ev_priority e' = ev_priority e /\ ev_primary e' = ev_primary e /\ ev_secondary e' = ev_secondary e /\ ev_skill e' = ev_skill e
  /\ ev_modifier e' = ev_modifier e /\ ev_targets e' = ev_targets e /\ ev_jr_added e' = ev_jr_added e /\ ev_jr_cond e' = ev_jr_cond e
  /\ ev_combo_cond e' = ev_combo_cond e /\ snap_more (fst (ev_snap e)) (fst (ev_snap e')) /\ snap_more (snd (ev_snap e)) (snd (ev_snap e')).
Definition regular (e : event) : Prop := extra (sk_name (ev_skill e)) = false /\ forall sp, In sp (effects_of (ev_skill e)) -> usual sp.
Definition helping (e : event) : Prop := extra (sk_name (ev_skill e)) = true /\ support (ev_skill e).

Lemma hits_push o o' i i' h h' : boosted_hits o o' -> boosted_hit i i' -> heappush inst_lt o i = Ok h -> heappush inst_lt o' i' = Ok h' -> boosted_hits h h'.
Proof.
  intros (l & l' & P & P' & F) B H H'. apply heappush_perm in H. apply heappush_perm in H'. exists (i :: l), (i' :: l'). split; [|split].
  - rewrite <- H. constructor. exact P.
  - rewrite <- H'. constructor. exact P'.
  - constructor; assumption.
Qed.
Lemma boosted_refl e : boosted e e.
Proof. unfold boosted. repeat split; apply Qle_refl. Qed.
Lemma snap_refl x : snap_more x x.
Proof. destruct x; [reflexivity|apply boosted_refl]. Qed.

Lemma apply_more n t s m bu bu' sn sn' id id' l : boosted bu bu' -> snap_more sn sn' ->
  forall k a b o o' m0 x y, se_more a b -> boosted_hits o o' ->
  foldM (apply_target n t s m bu sn id) (enum_from k l) (a, o, m0) = Ok x ->
  foldM (apply_target n t s m bu' sn' id') (enum_from k l) (b, o', m0) = Ok y ->
  se_more (fst (fst x)) (fst (fst y)) /\ boosted_hits (snd (fst x)) (snd (fst y)) /\ snd y = snd x.
Proof.
  intros Bu Sn. induction l as [|z l IH]; intros k a b o o' m0 x y R O H H'.
  - cbn in H, H'. injection H as <-. injection H' as <-. repeat split; assumption || apply R.
  - cbn [enum_from foldM] in H, H'.
    apply bind_ok in H as ([[se1 o1] m1] & A & H). apply bind_ok in H' as ([[se1' o1'] m1'] & A' & H').
    unfold apply_target in A, A'. cbv zeta in A, A'.
    apply bind_ok in A as ([[se2 de] m2] & A1 & A). apply bind_ok in A' as ([[se2' de'] m2'] & A1' & A').
    assert (X : se_more se2 se2' /\ boosted de de' /\ m2' = m2).
    { destruct sn as [fl|e], sn' as [fl'|e']; try destruct Sn.
      - apply bind_ok in A1 as ([c [e1 c1]] & C & A1). apply bind_ok in A1' as ([c' [e1' c1']] & C' & A1').
        injection A1 as <- <- <-. injection A1' as <- <- <-. destruct (more_compile_debuffs _ _ _ _ _ _ _ R C C') as (R1 & Bo & E).
        cbn [fst snd] in *. subst c1'. split; [exact R1|]. split; [exact Bo|reflexivity].
      - injection A1 as <- <- <-. injection A1' as <- <- <-. split; [exact R|]. split; [exact (conj H0 H1)|reflexivity]. }
    destruct X as (R1 & De & ->). clear A1 A1'.
    apply bind_ok in A as (d & B & A). apply bind_ok in A' as (d' & B' & A'). rewrite B in B'. injection B' as <-.
    destruct d as [sp|].
    + apply bind_ok in A as (h & C & A). apply bind_ok in A' as (h' & C' & A'). injection A as <- <- <-. injection A' as <- <- <-.
      eapply IH; [exact R1 | | exact H | exact H']. eapply hits_push; [exact O| |exact C|exact C'].
      unfold boosted_hit. cbn. repeat (split; [reflexivity|]). split; assumption.
    + injection A as <- <- <-. injection A' as <- <- <-. eapply IH; [exact R1|exact O|exact H|exact H'].
Qed.
Lemma application_more a b o o' e e' x y : tk_more a b -> boosted_hits o o' -> regular e -> lifted e e' ->
  application_event a o e = Ok x -> application_event b o' e' = Ok y -> tk_more (fst x) (fst y) /\ boosted_hits (snd x) (snd y).
Proof.
  intros T O (Rx & Ru) (L1 & L2 & L3 & L4 & L5 & L6 & L7 & L8 & L9 & L10 & L11). unfold application_event. cbv zeta. rewrite L2, L4, L5, L6, L7, L8, L9.
  destruct (more_conditional a b (ev_primary e) (ev_skill e) (ev_modifier e) (ev_jr_cond e) T) as [T1 M1].
  destruct (resource_conditional a _ _ _ _) as [a1 m1], (resource_conditional b _ _ _ _) as [b1 m1']. cbn [fst snd] in *. subst m1'. intros H H'.
  apply bind_ok in H as (a2 & A & H). apply bind_ok in H' as (b2 & A' & H'). pose proof (more_added _ _ _ _ _ _ _ _ T1 A A') as T2. clear A A'.
  apply bind_ok in H as ([a3 m2] & A & H). apply bind_ok in H' as ([b3 m2'] & A' & H'). destruct (more_combo _ _ _ _ _ _ _ _ T2 A A') as [T3 M2].
  cbn [fst snd] in *. subst m2'. clear A A'. destruct T3 as (S3 & J3 & C3 & F3).
  apply bind_ok in H as ([[se1 bu] m3] & A & H). apply bind_ok in H' as ([[se1' bu'] m3'] & A' & H').
  assert (X : se_more se1 se1' /\ boosted bu bu' /\ m3' = m3).
  { destruct (fst (ev_snap e)) as [fl|ef], (fst (ev_snap e')) as [fl'|ef']; try destruct L10.
    - apply bind_ok in A as ([c [e1 c1]] & C & A). apply bind_ok in A' as ([c' [e1' c1']] & C' & A').
      injection A as <- <- <-. injection A' as <- <- <-. destruct (more_compile_buffs _ _ _ _ _ _ S3 C C') as (R1 & Bo & E).
      cbn [fst snd] in *. subst c1'. split; [exact R1|]. split; [exact Bo|reflexivity].
    - injection A as <- <- <-. injection A' as <- <- <-. split; [exact S3|]. split; [exact (conj H0 H1)|reflexivity]. }
  destruct X as (S4 & Bu & ->). clear A A'.
  apply bind_ok in H as ([[se2 o2] m4] & A & H). apply bind_ok in H' as ([[se2' o2'] m4'] & A' & H').
  destruct (apply_more _ _ _ _ _ _ _ _ _ _ _ Bu L11 _ _ _ _ _ _ _ _ S4 O A A') as (S5 & O5 & M5). cbn [fst snd] in *. subst m4'.
  apply bind_ok in H as (se3 & B & H). apply bind_ok in H' as (se3' & B' & H'). injection H as <-. injection H' as <-. cbn [fst snd tk_se tk_jr tk_combo].
  split; [|exact O5]. split; [|repeat (split; [assumption|]); exact F3]. eapply more_add; [exact S5|exact Rx|exact Ru|exact B|exact B'].
Qed.
Lemma apply_extra n t s m bu sn id l : extra (sk_name s) = true -> support s ->
  forall k a b o m0 y, se_more a b ->
  foldM (apply_target n t s m bu sn id) (enum_from k l) (b, o, m0) = Ok y -> se_more a (fst (fst y)) /\ snd (fst y) = o.
Proof.
  intros X (Su & _). induction l as [|z l IH]; intros k a b o m0 y R H.
  - cbn in H. injection H as <-. split; [exact R|reflexivity].
  - cbn [enum_from foldM] in H. apply bind_ok in H as ([[se1 o1] m1] & A & H). unfold apply_target in A. cbv zeta in A.
    apply bind_ok in A as ([[se2 de] m2] & A1 & A).
    assert (R1 : se_more a se2).
    { destruct sn as [fl|e].
      - apply bind_ok in A1 as ([c [e1 c1]] & C & A1). injection A1 as <- <- <-. exact (extra_compile_debuffs _ _ _ _ _ _ R X C).
      - injection A1 as <- <- <-. exact R. }
    destruct (Su m2) as (Nd & _). rewrite Nd in A. cbn [bind] in A. injection A as <- <- <-. eapply IH; [exact R1|exact H].
Qed.
Lemma application_extra a b o e y : tk_more a b -> helping e -> application_event b o e = Ok y -> tk_more a (fst y) /\ snd y = o.
Proof.
  intros T (X & Su). unfold application_event. cbv zeta.
  pose proof (extra_conditional a b (ev_primary e) (ev_skill e) (ev_modifier e) (ev_jr_cond e) T X) as T1.
  destruct (resource_conditional b _ _ _ _) as [b1 m1]. cbn [fst] in T1. intros H.
  apply bind_ok in H as (b2 & A & H). pose proof (extra_added _ _ _ _ _ _ _ T1 Su A) as T2. clear A.
  apply bind_ok in H as ([b3 m2] & A & H). pose proof (extra_combo _ _ _ _ _ _ _ T2 Su A) as T3. cbn [fst] in T3. clear A. destruct T3 as (S3 & J3 & C3 & F3).
  apply bind_ok in H as ([[se1 bu] m3] & A & H).
  assert (S4 : se_more (tk_se a) se1).
  { destruct (fst (ev_snap e)) as [fl|ef].
    - apply bind_ok in A as ([c [e1 c1]] & C & A). injection A as <- <- <-. exact (extra_compile_buffs _ _ _ _ _ S3 X C).
    - injection A as <- <- <-. exact S3. }
  clear A. apply bind_ok in H as ([[se2 o2] m4] & A & H). destruct (apply_extra _ _ _ _ _ _ _ _ X Su _ _ _ _ _ _ S4 A) as (S5 & O5). cbn [fst snd] in *. subst o2.
  apply bind_ok in H as (se3 & B & H). injection H as <-. cbn [fst snd tk_se tk_jr tk_combo]. split; [|reflexivity].
  split; [|repeat (split; [assumption|]); exact F3]. exact (more_add_extra _ _ _ _ _ _ _ S5 X (proj2 Su) B).
Qed.

Definition left_at (pr : Z) (s : skill) (app : Z) (n : nat) (x : event) : Prop :=
  ev_priority x = pr /\ ev_skill x = s /\ ev_secondary x = None /\ app <= ev_primary x /\ (n = 1%nat -> ev_primary x = app).
Lemma snapshot_more_fold n t app pr s m sn sn' id id' jrc cc l : snap_more (fst sn) (fst sn') -> snap_more (snd sn) (snd sn') ->
  forall k a b qu qu' x y, 0 <= k -> se_more a b ->
  foldM (snapshot_target n t app pr s m sn id jrc cc) (enum_from k l) (a, qu) = Ok x ->
  foldM (snapshot_target n t app pr s m sn' id' jrc cc) (enum_from k l) (b, qu') = Ok y ->
  se_more (fst x) (fst y)
  /\ exists news news', Permutation (q_heap (snd x)) (news ++ q_heap qu) /\ Permutation (q_heap (snd y)) (news' ++ q_heap qu')
       /\ (q_inv qu -> q_inv (snd x)) /\ (q_inv qu' -> q_inv (snd y))
       /\ List.length news = List.length l /\ Forall (left_at pr s app n) news /\ Forall2 lifted news news'.
Proof.
  intros S0 S1. induction l as [|z l IH]; intros k a b qu qu' x y K R H H'.
  - cbn in H, H'. injection H as <-. injection H' as <-. cbn. split; [exact R|]. exists [], []. repeat split; auto.
  - cbn [enum_from foldM] in H, H'.
    apply bind_ok in H as ([se1 q1] & A & H). apply bind_ok in H' as ([se1' q1'] & A' & H').
    unfold snapshot_target in A, A'. cbv zeta in A, A'.
    apply bind_ok in A as ([[se2 sn1] m2] & A1 & A). apply bind_ok in A' as ([[se2' sn1'] m2'] & A1' & A').
    assert (X : se_more se2 se2' /\ snap_more sn1 sn1' /\ m2' = m2).
    { destruct (snd sn) as [[|]|e], (snd sn') as [[|]|e']; cbn in S1; try discriminate S1; try destruct S1.
      - apply bind_ok in A1 as ([c [e1 c1]] & C & A1). apply bind_ok in A1' as ([c' [e1' c1']] & C' & A1').
        injection A1 as <- <- <-. injection A1' as <- <- <-. destruct (more_compile_debuffs _ _ _ _ _ _ _ R C C') as (R1 & Bo & E).
        cbn [fst snd] in *. subst c1'. split; [exact R1|]. split; [exact Bo|reflexivity].
      - injection A1 as <- <- <-. injection A1' as <- <- <-. split; [exact R|]. split; reflexivity.
      - injection A1 as <- <- <-. injection A1' as <- <- <-. split; [exact R|]. split; [exact (conj H0 H1)|reflexivity]. }
    destruct X as (R1 & Sn & ->). clear A1 A1'.
    apply bind_ok in A as (q2 & B & A). apply bind_ok in A' as (q2' & B' & A'). injection A as <- <-. injection A' as <- <-.
    rewrite q_add_eq in B, B'. apply api_add_spec in B as (P & _ & I). apply api_add_spec in B' as (P' & _ & I').
    cbn [stored_event ad_priority ad_primary ad_secondary ad_skill ad_modifier ad_snap ad_id ad_jr_added ad_jr_cond ad_combo_cond ad_targets] in P, P'.
    assert (K1 : 0 <= k + 1) by lia.
    destruct (IH _ _ _ _ _ _ _ K1 R1 H H') as (E1 & news & news' & Q & Q' & J & J' & Ln & W & V). split; [exact E1|].
    eexists (news ++ [_])%list, (news' ++ [_])%list. rewrite <- !app_assoc. cbn [List.app].
    split; [rewrite Q; apply Permutation_app_head, P|]. split; [rewrite Q'; apply Permutation_app_head, P'|].
    split; [auto|]. split; [auto|]. split; [rewrite app_length; cbn; lia|]. split.
    + apply Forall_app. split; [exact W|]. constructor; [|constructor]. unfold left_at. cbn. repeat split; [apply target_time_ge, K|].
      intros ->. reflexivity.
    + apply Forall2_app; [exact V|]. constructor; [|constructor]. unfold lifted. cbn. repeat (split; [reflexivity|]). split; assumption.
Qed.
Lemma snapshot_more a b qu qu' e e' app x y : tk_more a b -> lifted e e' ->
  snapshot_event a qu e app = Ok x -> snapshot_event b qu' e' app = Ok y ->
  tk_more (fst x) (fst y)
  /\ exists news news', Permutation (q_heap (snd x)) (news ++ q_heap qu) /\ Permutation (q_heap (snd y)) (news' ++ q_heap qu')
       /\ (q_inv qu -> q_inv (snd x)) /\ (q_inv qu' -> q_inv (snd y))
       /\ List.length news = List.length (ev_targets e) /\ left_by e app news /\ Forall2 lifted news news'.
Proof.
  intros T (L1 & L2 & L3 & L4 & L5 & L6 & L7 & L8 & L9 & L10 & L11). unfold snapshot_event. cbv zeta. rewrite L1, L2, L4, L5, L6, L7, L8, L9.
  intros H H'. destruct T as (S & J & K & F).
  apply bind_ok in H as ([[se1 sn0] m1] & A & H). apply bind_ok in H' as ([[se1' sn0'] m1'] & A' & H').
  assert (X : se_more se1 se1' /\ snap_more sn0 sn0' /\ m1' = m1).
  { destruct (fst (ev_snap e)) as [[|]|ef], (fst (ev_snap e')) as [[|]|ef']; cbn in L10; try discriminate L10; try destruct L10.
    - apply bind_ok in A as ([c [e1 c1]] & C & A). apply bind_ok in A' as ([c' [e1' c1']] & C' & A').
      injection A as <- <- <-. injection A' as <- <- <-. destruct (more_compile_buffs _ _ _ _ _ _ S C C') as (R1 & Bo & E).
      cbn [fst snd] in *. subst c1'. split; [exact R1|]. split; [exact Bo|reflexivity].
    - injection A as <- <- <-. injection A' as <- <- <-. split; [exact S|]. split; reflexivity.
    - injection A as <- <- <-. injection A' as <- <- <-. split; [exact S|]. split; [exact (conj H0 H1)|reflexivity]. }
  destruct X as (S1 & Sn0 & ->). clear A A'. rewrite J, K in H'.
  assert (T1 : tk_more (mkTrackers se1 (tk_jr a) (tk_combo a)) (mkTrackers se1' (tk_jr a) (tk_combo a))) by (split; [exact S1|split; [reflexivity|split; [reflexivity|exact F]]]).
  set (skip := ev_jr_cond e || negb (sk_job_resources_snapshot (ev_skill e))) in *.
  destruct (more_conditional _ _ (ev_primary e) (ev_skill e) m1 skip T1) as [T2 M2].
  destruct (resource_conditional (mkTrackers se1 _ _) _ _ _ _) as [a2 m2], (resource_conditional (mkTrackers se1' _ _) _ _ _ _) as [b2 m2']. cbn [fst snd] in *. subst m2'.
  apply bind_ok in H as ([a3 m3] & A & H). apply bind_ok in H' as ([b3 m3'] & A' & H'). destruct (more_combo _ _ _ _ _ _ _ _ T2 A A') as [T3 M3].
  cbn [fst snd] in *. subst m3'. clear A A'.
  apply bind_ok in H as (a4 & A & H). apply bind_ok in H' as (b4 & A' & H'). pose proof (more_added _ _ _ _ _ _ _ _ T3 A A') as (S4 & J4 & K4 & F4). clear A A'.
  apply bind_ok in H as ([se2 q2] & A & H). apply bind_ok in H' as ([se2' q2'] & A' & H'). injection H as <-. injection H' as <-.
  destruct (snapshot_more_fold _ _ _ _ _ _ (sn0, snd (ev_snap e)) (sn0', snd (ev_snap e')) _ _ _ _ _ Sn0 L11 _ _ _ _ _ _ _ (Z.le_refl 0) S4 A A')
    as (E & news & news' & P & P' & I & I' & L & W & V).
  cbn [fst snd tk_se tk_jr tk_combo] in *. split; [split; [exact E|repeat (split; [assumption|]); exact F4]|]. exists news, news'. repeat (split; [assumption|]).
  exact V.
Qed.
Lemma snapshot_extra_fold n t app pr s m sn id jrc cc l : extra (sk_name s) = true ->
  forall k a b qu y, 0 <= k -> se_more a b ->
  foldM (snapshot_target n t app pr s m sn id jrc cc) (enum_from k l) (b, qu) = Ok y ->
  se_more a (fst y)
  /\ exists news, Permutation (q_heap (snd y)) (news ++ q_heap qu) /\ (q_inv qu -> q_inv (snd y)) /\ List.length news = List.length l /\ Forall (left_at pr s app n) news.
Proof.
  intros X. induction l as [|z l IH]; intros k a b qu y K R H.
  - cbn in H. injection H as <-. cbn. split; [exact R|]. exists []. repeat split; auto.
  - cbn [enum_from foldM] in H. apply bind_ok in H as ([se1 q1] & A & H). unfold snapshot_target in A. cbv zeta in A.
    apply bind_ok in A as ([[se2 sn1] m2] & A1 & A).
    assert (R1 : se_more a se2).
    { destruct (snd sn) as [[|]|e].
      - apply bind_ok in A1 as ([c [e1 c1]] & C & A1). injection A1 as <- <- <-. exact (extra_compile_debuffs _ _ _ _ _ _ R X C).
      - injection A1 as <- <- <-. exact R.
      - injection A1 as <- <- <-. exact R. }
    clear A1. apply bind_ok in A as (q2 & B & A). injection A as <- <-. rewrite q_add_eq in B. apply api_add_spec in B as (P & _ & I).
    cbn [stored_event ad_priority ad_primary ad_secondary ad_skill ad_modifier ad_snap ad_id ad_jr_added ad_jr_cond ad_combo_cond ad_targets] in P.
    assert (K1 : 0 <= k + 1) by lia.
    destruct (IH _ _ _ _ _ K1 R1 H) as (E1 & news & Q & J & Ln & W). split; [exact E1|].
    eexists (news ++ [_])%list. rewrite <- !app_assoc. cbn [List.app].
    split; [rewrite Q; apply Permutation_app_head, P|]. split; [auto|]. split; [rewrite app_length; cbn; lia|].
    apply Forall_app. split; [exact W|]. constructor; [|constructor]. unfold left_at. cbn. repeat split; [apply target_time_ge, K|]. intros ->. reflexivity.
Qed.
Lemma snapshot_extra a b qu e app y : tk_more a b -> helping e -> snapshot_event b qu e app = Ok y ->
  tk_more a (fst y)
  /\ exists news, Permutation (q_heap (snd y)) (news ++ q_heap qu) /\ (q_inv qu -> q_inv (snd y)) /\ List.length news = List.length (ev_targets e) /\ left_by e app news.
Proof.
  intros T (X & Su). unfold snapshot_event. cbv zeta. intros H. destruct T as (S & J & K & F).
  apply bind_ok in H as ([[se1 sn0] m1] & A & H).
  assert (S1 : se_more (tk_se a) se1).
  { destruct (fst (ev_snap e)) as [[|]|ef].
    - apply bind_ok in A as ([c [e1 c1]] & C & A). injection A as <- <- <-. exact (extra_compile_buffs _ _ _ _ _ S X C).
    - injection A as <- <- <-. exact S.
    - injection A as <- <- <-. exact S. }
  clear A. assert (T1 : tk_more a (mkTrackers se1 (tk_jr b) (tk_combo b))) by (split; [exact S1|repeat (split; [assumption|]); exact F]).
  set (skip := ev_jr_cond e || negb (sk_job_resources_snapshot (ev_skill e))) in *.
  pose proof (extra_conditional _ _ (ev_primary e) (ev_skill e) m1 skip T1 X) as T2.
  destruct (resource_conditional (mkTrackers se1 _ _) _ _ _ _) as [b2 m2]. cbn [fst] in T2.
  apply bind_ok in H as ([b3 m3] & A & H). pose proof (extra_combo _ _ _ _ _ _ _ T2 Su A) as T3. cbn [fst] in T3. clear A.
  apply bind_ok in H as (b4 & A & H). pose proof (extra_added _ _ _ _ _ _ _ T3 Su A) as (S4 & J4 & K4 & F4). clear A.
  apply bind_ok in H as ([se2 q2] & A & H). injection H as <-.
  destruct (snapshot_extra_fold _ _ _ _ _ _ _ _ _ _ _ X _ _ _ _ _ (Z.le_refl 0) S4 A) as (E & news & P & I & L & W).
  cbn [fst snd tk_se tk_jr tk_combo] in *. split; [split; [exact E|repeat (split; [assumption|]); exact F4]|]. exists news. repeat (split; [assumption|]).
  eapply Forall_impl; [|exact W]. unfold left_at. intros z (F1 & F2 & F3 & F5 & F6). unfold time_to_prio in F1. repeat split; auto.
Qed.

(** ** Steps *)
Definition tk_ahead (T : Z) (a b : trackers) : Prop := ahead T (tk_se a) (tk_se b) /\ tk_jr b = tk_jr a /\ tk_combo b = tk_combo a /\ free (tk_jr a).
Definition leaves (e : event) (news : list event) : Prop :=
  match ev_secondary e with None => news = [] | Some app => List.length news = List.length (ev_targets e) /\ left_by e app news end.

Lemma step_more T a b qu qu' o o' e e' x y : tk_ahead T a b -> T <= ev_primary e -> boosted_hits o o' -> regular e -> lifted e e' ->
  damage_step a qu o e = Ok x -> damage_step b qu' o' e' = Ok y ->
  tk_ahead (ev_primary e) (fst (fst x)) (fst (fst y)) /\ boosted_hits (snd x) (snd y)
  /\ exists news news', Permutation (q_heap (snd (fst x))) (news ++ q_heap qu) /\ Permutation (q_heap (snd (fst y))) (news' ++ q_heap qu')
       /\ (q_inv qu -> q_inv (snd (fst x))) /\ (q_inv qu' -> q_inv (snd (fst y))) /\ leaves e news /\ Forall2 lifted news news'.
Proof.
  intros (S & J & K & F) Le O R L. unfold damage_step, leaves. cbv zeta.
  set (a0 := mkTrackers (expire_status_effects (ev_primary e) (tk_se a)) (tk_jr a) (tk_combo a)).
  set (b0 := mkTrackers (expire_status_effects (ev_primary e') (tk_se b)) (tk_jr b) (tk_combo b)).
  assert (Tm : tk_more a0 b0).
  { unfold a0, b0. destruct L as (_ & L2 & _). rewrite L2. split; [cbn; apply S, Le|]. cbn. repeat (split; [assumption|]). exact F. }
  assert (Aw : forall u v, tk_more u v -> tk_ahead (ev_primary e) u v) by (intros u v (M1 & M2); split; [apply ahead_here, M1|exact M2]).
  pose proof L as (_ & _ & L3 & _). rewrite L3. destruct (ev_secondary e) as [app|] eqn:Sec; intros H H'.
  - apply bind_ok in H as ([tk1 q1] & A & H). apply bind_ok in H' as ([tk1' q1'] & A' & H'). injection H as <-. injection H' as <-.
    destruct (snapshot_more _ _ _ _ _ _ _ _ _ Tm L A A') as (E & news & news' & P & P' & I & I' & Ln & W & V). cbn [fst snd] in *. split; [apply Aw, E|]. split; [exact O|].
    exists news, news'. repeat (split; [assumption|]). split; [split; assumption|exact V].
  - apply bind_ok in H as ([tk1 o1] & A & H). apply bind_ok in H' as ([tk1' o1'] & A' & H'). injection H as <-. injection H' as <-.
    destruct (application_more _ _ _ _ _ _ _ _ Tm O R L A A') as (E & W). cbn [fst snd] in *. split; [apply Aw, E|]. split; [exact W|].
    exists [], []. repeat (split; [assumption || reflexivity || auto|]). constructor.
Qed.
Lemma step_extra T a b qu o e y : tk_ahead T a b -> T <= ev_primary e -> helping e -> damage_step b qu o e = Ok y ->
  tk_ahead (ev_primary e) a (fst (fst y)) /\ snd y = o
  /\ exists news, Permutation (q_heap (snd (fst y))) (news ++ q_heap qu) /\ (q_inv qu -> q_inv (snd (fst y))) /\ leaves e news.
Proof.
  intros (S & J & K & F) Le Hp. unfold damage_step, leaves. cbv zeta.
  set (a0 := mkTrackers (expire_status_effects (ev_primary e) (tk_se a)) (tk_jr a) (tk_combo a)).
  set (b0 := mkTrackers (expire_status_effects (ev_primary e) (tk_se b)) (tk_jr b) (tk_combo b)).
  assert (Tm : tk_more a0 b0) by (split; [cbn; apply S, Le|]; cbn; repeat (split; [assumption|]); exact F).
  assert (Aw : forall v, tk_more a0 v -> tk_ahead (ev_primary e) a v) by (intros v (M1 & M2); split; [apply ahead_expired, M1|exact M2]).
  destruct (ev_secondary e) as [app|] eqn:Sec; intros H.
  - apply bind_ok in H as ([tk1 q1] & A & H). injection H as <-.
    destruct (snapshot_extra _ _ _ _ _ _ Tm Hp A) as (E & news & P & I & Ln & W). cbn [fst snd] in *. split; [apply Aw, E|]. split; [reflexivity|].
    exists news. repeat (split; [assumption|]). assumption.
  - apply bind_ok in H as ([tk1 o1] & A & H). injection H as <-.
    destruct (application_extra _ _ _ _ _ Tm Hp A) as (E & W). cbn [fst snd] in *. split; [apply Aw, E|]. split; [exact W|].
    exists []. repeat (split; [reflexivity || auto|]). reflexivity.
Qed.

(** ** The loop *)
Lemma follow_orderly e news : orderly e -> leaves e news -> Forall orderly news /\ Forall (fun x => ev_primary e <= ev_primary x /\ ev_skill x = ev_skill e) news.
Proof.
  unfold leaves. intros (O1 & O2) N. destruct (ev_secondary e) as [app|]; [|subst news; split; constructor].
  destruct N as (Ln & F). destruct (O2 app eq_refl) as (A & One). unfold left_by in F. rewrite Forall_forall in F. split; apply Forall_forall; intros x I;
    destruct (F x I) as (F1 & F2 & F3 & F4 & F5); specialize (F5 One).
  - split; [rewrite F1, F5; lia|]. rewrite F3. discriminate.
  - split; [lia|exact F2].
Qed.
Lemma key_time a b : orderly a -> orderly b -> key_le a b -> ev_primary a <= ev_primary b.
Proof. intros (A & _) (B & _) [K|[K _]]; lia. Qed.
Lemma lifted_orderly e e' : lifted e e' -> orderly e -> orderly e'.
Proof. intros (L1 & L2 & L3 & _ & _ & L6 & _) O. unfold orderly in *. rewrite L1, L2, L3, L6. exact O. Qed.
Lemma lifted_key a b a' b' : lifted a a' -> lifted b b' -> key_le a' b' -> key_le a b.
Proof. intros (A1 & _ & _ & A2 & _) (B1 & _ & _ & B2 & _). unfold key_le. rewrite A1, A2, B1, B2. auto. Qed.
Lemma regular_same e x : ev_skill x = ev_skill e -> regular e -> regular x.
Proof. unfold regular. intros ->. auto. Qed.
Lemma helping_same e x : ev_skill x = ev_skill e -> helping e -> helping x.
Proof. unfold helping. intros ->. auto. Qed.
Lemma forall2_in_l {A B} (R : A -> B -> Prop) l m x : Forall2 R l m -> In x l -> exists y, In y m /\ R x y.
Proof.
  induction 1 as [|a b l m r F IH]; intros I; [destruct I|]. destruct I as [<-|I]; [exists b; split; [left; reflexivity|exact r]|].
  destruct (IH I) as (y & J & Q). exists y. split; [right; exact J|exact Q].
Qed.

Lemma loops_more fuel' : forall fuel T a b qu qu' o o' l l' more x y,
  q_inv qu -> q_inv qu' -> Permutation (q_heap qu) l -> Permutation (q_heap qu') (more ++ l') -> Forall2 lifted l l' ->
  Forall orderly l -> distinct_places l -> Forall regular l -> Forall (fun e => T <= ev_primary e) l ->
  Forall orderly more -> Forall helping more -> Forall (fun e => T <= ev_primary e) more ->
  tk_ahead T a b -> boosted_hits o o' ->
  damage_loop fuel a qu o = Ok x -> damage_loop fuel' b qu' o' = Ok y -> boosted_hits (snd x) (snd y).
Proof.
  induction fuel' as [|fuel' IH]; intros fuel T a b qu qu' o o' l l' more x y I I' P P' J O D R Tl Om Hm Tm Tk Z H H'.
  all: cbn [damage_loop] in H'; destruct (q_is_empty qu') eqn:Em'; try discriminate H'.
  1,2: injection H' as <-; apply empty_heap in Em'; rewrite Em' in P'; apply Permutation_nil, app_eq_nil in P' as [-> ->];
    inversion J; subst; apply Permutation_sym, Permutation_nil in P; destruct fuel; cbn [damage_loop] in H; unfold q_is_empty in H; rewrite P in H; injection H as <-; exact Z.
  apply bind_ok in H' as ([e' q1'] & G' & H'). apply q_get_next_spec in G' as (Q' & _ & I1' & M'); [|exact I'].
  apply bind_ok in H' as ([[tk1' q2'] o1'] & S' & H').
  assert (Je' : In e' (more ++ l')) by (apply (Permutation_in _ P'), (Permutation_in _ (Permutation_sym Q')); left; reflexivity).
  assert (Ol' : Forall orderly l') by (clear - J O; induction J as [|u v l l' r J IH]; [constructor|inversion O; subst; constructor; [eapply lifted_orderly; eassumption|apply IH; assumption]]).
  assert (Oall : forall z, In z (more ++ l') -> orderly z) by (intros z Iz; apply in_app_or in Iz as [Iz|Iz]; [rewrite Forall_forall in Om|rewrite Forall_forall in Ol']; auto).
  assert (Late : forall z, In z (more ++ l') -> ev_primary e' <= ev_primary z).
  { intros z Iz. apply key_time; [apply Oall, Je'|apply Oall, Iz|]. apply M', (Permutation_in _ (Permutation_sym P')), Iz. }
  assert (LateL : Forall (fun z => ev_primary e' <= ev_primary z) l).
  { apply Forall_forall. intros z Iz. destruct (forall2_in_l lifted l l' z J Iz) as (p & Ip & (_ & Lp & _)). rewrite <- Lp. apply Late, in_or_app. auto. }
  assert (LateM : Forall (fun z => ev_primary e' <= ev_primary z) more) by (apply Forall_forall; intros z Iz; apply Late, in_or_app; auto).
  apply in_app_or in Je' as [Je'|Je'].
  - (* a further buff *)
    apply in_split in Je' as (m1 & m2 & ->).
    assert (He : helping e' /\ orderly e' /\ T <= ev_primary e').
    { rewrite Forall_forall in Hm, Om, Tm. assert (In e' (m1 ++ e' :: m2)) by (apply in_or_app; right; left; reflexivity). auto. }
    destruct He as (He & Oe & Te).
    destruct (step_extra _ _ _ _ _ _ _ Tk Te He S') as (Tk1 & Zo & news & Rn & X & N). cbn [fst snd] in *. subst o1'.
    destruct (follow_orderly _ _ Oe N) as (On & Fn).
    assert (Pm : Permutation (m1 ++ e' :: m2) (e' :: m1 ++ m2)) by (symmetry; apply Permutation_middle).
    assert (Q1' : Permutation (q_heap q1') ((m1 ++ m2) ++ l')).
    { apply (Permutation_cons_inv (a := e')). rewrite <- Q', P', Pm. reflexivity. }
    apply (forall_perm _ _ _ Pm) in Om, Hm, LateM. inversion Om; subst. inversion Hm; subst. inversion LateM; subst.
    apply (IH fuel (ev_primary e') a tk1' qu q2' o o' l l' (news ++ m1 ++ m2)%list x y); auto.
    + rewrite Rn, Q1', <- !app_assoc. reflexivity.
    + apply Forall_app. split; assumption.
    + apply Forall_app. split; [|assumption]. eapply Forall_impl; [|exact Fn]. cbn. intros z (_ & Ez). exact (helping_same _ _ Ez He).
    + apply Forall_app. split; [|assumption]. eapply Forall_impl; [|exact Fn]. cbn. intros z (Lz & _). exact Lz.
  - apply in_split in Je' as (l1' & l2' & E').
    rewrite E' in J. apply Forall2_app_inv_r in J as (l1 & l2z & J1 & J2 & E1). inversion J2 as [|z e0 l2 m2 Jz J3]; subst e0 m2 l2z.
    destruct fuel as [|fuel]; cbn [damage_loop] in H; destruct (q_is_empty qu) eqn:Em; try discriminate H.
    1,2: apply empty_heap in Em; rewrite Em in P; apply Permutation_nil in P; rewrite P in E1; symmetry in E1; apply app_eq_nil in E1 as [_ E1]; discriminate E1.
    apply bind_ok in H as ([e q1] & G & H). apply q_get_next_spec in G as (Q & _ & I1 & M); [|exact I].
    assert (Je : In e l) by (apply (Permutation_in _ P), (Permutation_in _ (Permutation_sym Q)); left; reflexivity).
    assert (z = e).
    { destruct (forall2_in_l lifted l l' e) as (p & Jp & Rp); [subst l l'; apply Forall2_app; assumption|exact Je|].
      assert (L1 : key_le z e).
      { apply (lifted_key z e e' p Jz Rp). apply M', (Permutation_in _ (Permutation_sym P')), in_or_app. right. exact Jp. }
      assert (Iz : In z l) by (subst l; apply in_or_app; right; left; reflexivity).
      assert (L2 : key_le e z) by (apply M, (Permutation_in _ (Permutation_sym P)), Iz).
      destruct (key_le_same _ _ L1 L2). apply (place_unique l); assumption. }
    subst z. apply bind_ok in H as ([[tk1 q2] o1] & S & H).
    assert (He : regular e /\ orderly e /\ T <= ev_primary e) by (rewrite Forall_forall in R, O, Tl; auto). destruct He as (He & Oe & Te).
    assert (Et : ev_primary e' = ev_primary e) by apply Jz. rewrite Et in *.
    destruct (step_more _ _ _ _ _ _ _ _ _ _ _ Tk Te Z He Jz S S') as (T1 & Z1 & news & news' & Rn & Rn' & X & X' & N & V). cbn [fst snd] in *.
    destruct (follow_orderly _ _ Oe N) as (_ & Fn).
    assert (Pe : Permutation l (e :: l1 ++ l2)) by (subst l; symmetry; apply Permutation_middle).
    assert (Q1 : Permutation (q_heap q1) (l1 ++ l2)) by (apply (Permutation_cons_inv (a := e)); rewrite <- Q, P; exact Pe).
    assert (Q1' : Permutation (q_heap q1') (more ++ l1' ++ l2')).
    { apply (Permutation_cons_inv (a := e')). rewrite <- Q', P', E'. rewrite !app_assoc. symmetry. apply Permutation_middle. }
    destruct (step_orderly e (l1 ++ l2) news) as [O1 D1]; [exact (forall_perm _ _ _ Pe O)|exact (places_perm _ _ Pe D)|exact N|].
    apply (forall_perm _ _ _ Pe) in R, LateL. inversion R; subst. inversion LateL; subst.
    apply (IH fuel (ev_primary e) tk1 tk1' q2 q2' o1 o1' (news ++ l1 ++ l2)%list (news' ++ l1' ++ l2')%list more x y); auto.
    + rewrite Rn. apply Permutation_app_head, Q1.
    + rewrite Rn', Q1'. rewrite !app_assoc. apply Permutation_app_tail, Permutation_app_tail, Permutation_app_comm.
    + apply Forall2_app; [exact V|apply Forall2_app; assumption].
    + apply Forall_app. split; [|assumption]. eapply Forall_impl; [|exact Fn]. cbn. intros z (_ & Ez). exact (regular_same _ _ Ez He).
    + apply Forall_app. split; [|assumption]. eapply Forall_impl; [|exact Fn]. cbn. intros z (Lz & _). exact Lz.
Qed.
End Extra.

Lemma bounded_below (l : list event) : exists T, Forall (fun e => T <= ev_primary e) l.
Proof.
  induction l as [|e l (T & IH)]; [exists 0; constructor|]. exists (Z.min T (ev_primary e)). constructor; [lia|].
  eapply Forall_impl; [|exact IH]. cbn. intros x. lia.
Qed.
Lemma anon_lifted e e' : anon e' = anon e -> lifted e e'.
Proof.
  unfold anon. intros H. injection H as E1 E2 E3 E4 E5 E6 E7 E8 E9 E10. unfold lifted. rewrite E6. repeat (split; [assumption|]). split; apply snap_refl.
Qed.
Lemma anon_lifts l : forall l', map anon l' = map anon l -> Forall2 lifted l l'.
Proof.
  induction l as [|e l IH]; intros [|e' l'] H; try discriminate H; [constructor|]. cbn [map] in H.
  assert (H1 : anon e' = anon e /\ map anon l' = map anon l) by (split; congruence). constructor; [apply anon_lifted, H1|apply IH, H1].
Qed.

Theorem buffs_keep_hits extra st lib tk qu qu' tk1 tk1' q1 q1' l l' :
  q_inv qu -> q_inv qu' -> supported extra (q_heap qu) (q_heap qu') -> indifferent extra lib st (q_heap qu) ->
  Forall orderly (q_heap qu) -> distinct_places (q_heap qu) -> db_init st lib = Ok tk ->
  get_damage_instances tk qu = Ok (tk1, q1, l) -> get_damage_instances tk qu' = Ok (tk1', q1', l') ->
  boosted_hits l l'.
Proof.
  unfold get_damage_instances. intros I I' (more & P & Fm & Fl) (U1 & U2 & U3) O D N H H'.
  apply bind_ok in H as ([[tka qa] oa] & R & H). apply bind_ok in H' as ([[tkb qb] ob] & R' & H').
  injection H as <- <- <-. injection H' as <- <- <-.
  apply Permutation_sym, Permutation_map_inv in P as (k & E & P). rewrite map_app in E. symmetry in E. apply map_eq_app in E as (more' & l2 & -> & E1 & E2).
  assert (Fm' : Forall (helping extra) more' /\ Forall orderly more').
  { clear - Fm E1. revert more' E1. induction Fm as [|e more (X & Su & O) F IH]; intros [|e' more'] E; try discriminate E; [split; constructor|].
    injection E as A1 A2 A3 A4 A5 A6 A7 A8 A9 A10 E. destruct (IH more' E) as (IH1 & IH2). split; constructor; try assumption.
    - apply (helping_same extra e); [assumption|]. split; assumption.
    - unfold orderly in *. rewrite A1, A2, A3, A7. exact O. }
  destruct Fm' as (Hm & Om).
  destruct (bounded_below (q_heap qu)) as (T1 & B1). destruct (bounded_below more') as (T2 & B2).
  assert (G : boosted_hits oa ob).
  { refine (loops_more extra _ _ (Z.min T1 T2) tk tk qu qu' [] [] (q_heap qu) l2 more' _ _ I I' (Permutation_refl _) P (anon_lifts _ _ E2) O D _ _ Om Hm _ _ _ R R').
    - apply Forall_forall. intros e Ie. split; [rewrite Forall_forall in Fl; exact (Fl e Ie)|]. intros sp Is. exact (U1 e sp Ie Is).
    - eapply Forall_impl; [|exact B1]. cbn. intros e. lia.
    - eapply Forall_impl; [|exact B2]. cbn. intros e. lia.
    - unfold db_init, new_trackers in N. apply bind_ok in N as (prio & Np & N). apply bind_ok in N as (rs & Nr & N). apply bind_ok in N as (br & Nb & N). injection N as <-.
      split; [|split; [reflexivity|split; [reflexivity|]]].
      + apply ahead_here. split; [reflexivity|]. split; [exact (fun n => U2 prio n Np)|]. split; [reflexivity|]. split; [reflexivity|]. split; [apply good_nil|].
        intros x. apply good_nil.
      + intros n X k cfg l Ik In. cbn in Ik. apply in_map_iff in Ik as ([k' cfg'] & Ek & Ik). injection Ek as <- <- <-.
        pose proof (U3 rs k' cfg' n Nr Ik In). congruence.
    - exists [], []. repeat split; constructor. }
  destruct G as (x & y & G1 & G2 & G3). exists x, y. split; [etransitivity; [apply sort_by_perm|exact G1]|]. split; [etransitivity; [apply sort_by_perm|exact G2]|exact G3].
Qed.
