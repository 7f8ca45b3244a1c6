(** * The damage keeps to the names of the targets *)

From Coq Require Import ZArith QArith List String Bool Lia Permutation.
From Verif Require Import Base BaseFacts Float Heap HeapFacts Strings Types Lookup Stats Library StatusEffect JobResource Combo
  Events Rotation DamageBuild Damage Relabel AutoProps MoveFacts MoveDamage SpecMove SpecPlay SpecDots SpecRun RunProps DamageRun SpecTarget TargetFacts.
Import ListNotations.
Open Scope string_scope.
Open Scope Z_scope.

Lemma push_through {T A B} (p : T -> A) (f : A -> B) (la : A -> A -> res bool) (lb : B -> B -> res bool) l x :
  (forall x y, lb (f (p x)) (f (p y)) = la (p x) (p y)) -> heappush lb (map f (map p l)) (f (p x)) = rmap (map f) (heappush la (map p l) (p x)).
Proof.
  intros H. rewrite map_map, (heappush_map (fun x => f (p x)) (fun x y => la (p x) (p y)) lb H), (heappush_map p (fun x y => la (p x) (p y)) la) by reflexivity.
  destruct (heappush _ l x) as [r|]; cbn [rmap]; [rewrite map_map|]; reflexivity.
Qed.
Lemma push_agree {A B} (f : A -> B) (la : A -> A -> res bool) (lb : B -> B -> res bool) l x :
  (forall y z, In y (x :: l) -> In z (x :: l) -> lb (f y) (f z) = la y z) -> heappush lb (map f l) (f x) = rmap (map f) (heappush la l x).
Proof.
  intros H.
  assert (G : forall k, (forall y, In y k -> In y (x :: l)) -> exists l' : list {y : A | In y (x :: l)}, map (@proj1_sig _ _) l' = k).
  { induction k as [|y k IH]; intros K; [exists []; reflexivity|]. destruct IH as (l' & L); [intros z I; apply K; right; exact I|].
    exists (exist _ y (K y (or_introl eq_refl)) :: l'). cbn [map proj1_sig]. rewrite L. reflexivity. }
  destruct (G l) as (l' & E); [intros y I; right; exact I|].
  pose proof (push_through (@proj1_sig _ _) f la lb l' (exist (fun y => In y (x :: l)) x (or_introl eq_refl))
    (fun y z => H _ _ (proj2_sig y) (proj2_sig z))) as D.
  rewrite E in D. exact D.
Qed.
Lemma enum_as (f : string -> string) l : forall i, enum_from i (map f l) = map (fun p => (fst p, f (snd p))) (enum_from i l).
Proof. induction l as [|x l IH]; intros i; [reflexivity|]. cbn [map enum_from fst snd]. rewrite IH. reflexivity. Qed.

(** The hits to come: an event id and a time. *)
Definition hits_at (id : Z) (n : nat) (t : Z) (l : list (Z * string)) : list (Z * Z) := map (fun p => (id, target_time n t (fst p))) l.
Definition event_hits (e : event) : list (Z * Z) :=
  hits_at (ev_id e) (List.length (ev_targets e)) (ev_time e) (enumerate (ev_targets e)).
Definition queue_hits (l : list event) : list (Z * Z) := flat_map event_hits l.
Definition out_hits (l : list instance) : list (Z * Z) := map (fun x => (di_id x, di_time x)) l.

Lemma event_hits_nodup e : NoDup (event_hits e).
Proof.
  unfold event_hits, hits_at, enumerate. rewrite <- (map_map fst (fun i => (ev_id e, target_time (List.length (ev_targets e)) (ev_time e) i))).
  rewrite enum_from_keys, map_map. set (n := List.length _). unfold target_time.
  destruct (Z.ltb_spec 1 (Z.of_nat n)) as [L|L].
  - apply FinFun.Injective_map_NoDup; [|apply seq_NoDup]. intros x y E. injection E as E. unfold MULTI_TARGET_DELAY_PER_TARGET in E. lia.
  - destruct n as [|[|n]]; [constructor|repeat constructor; intros []|lia].
Qed.
Lemma nodup_app {A} (a b : list A) : NoDup a -> NoDup b -> (forall x, In x a -> ~ In x b) -> NoDup (a ++ b).
Proof.
  induction a as [|x a IH]; intros Na Nb D; [exact Nb|]. inversion Na; subst. constructor.
  - intros I. apply in_app_or in I as [I|I]; [contradiction|exact (D x (or_introl eq_refl) I)].
  - apply IH; [assumption|exact Nb|intros y I; apply D; right; exact I].
Qed.
Lemma queue_hits_nodup l : NoDup (map ev_id l) -> NoDup (queue_hits l).
Proof.
  induction l as [|e l IH]; intros N; [constructor|]. inversion N as [|? ? N1 N2]; subst. cbn [queue_hits flat_map].
  apply nodup_app; [apply event_hits_nodup|apply IH, N2|]. intros x I J. apply N1. unfold event_hits, hits_at in I.
  apply in_map_iff in I as (p & <- & _). apply in_flat_map in J as (e' & E' & J). apply in_map_iff in J as (p' & Q & _).
  injection Q as Q _. rewrite <- Q. apply in_map, E'.
Qed.
Lemma queue_hits_perm l l' : Permutation l l' -> Permutation (queue_hits l) (queue_hits l').
Proof. apply Permutation_flat_map. Qed.

Section Names.
Variable f : string -> string.
Hypothesis inj : keeps_apart f.
Variable Dn : string -> Prop.
Notation calm := (calm f Dn).
Notation queue_rel := (queue_rel f Dn).
Notation calm_queue := (calm_queue f Dn).

(** ** Status effects: each target keeps its debuffs, whatever it is called *)
Definition known (d : dict active) : Prop := forall n, In n (map fst d) -> Dn n.
Definition se_same (st st' : se_tracker) : Prop :=
  se_buffs st' = se_buffs st /\ se_priority st' = se_priority st
  /\ (forall x, get_debuffs st' (f x) = get_debuffs st x)
  /\ (home f \/ ((forall x, known (get_debuffs st x)) /\ (forall x, known (get_debuffs st' x)))).
Lemma known_expire t d : known d -> known (expire_effects t d).
Proof. intros K n I. apply in_map_iff in I as (x & <- & I). apply filter_In in I as [I _]. apply K, in_map, I. Qed.
Lemma known_end d n t : known d -> known (end_effect d n t).
Proof.
  intros K. unfold end_effect. destruct (dget n d) as [a|] eqn:G; [|exact K]. intros k I. apply K.
  rewrite dset_keys in I; [exact I|]. apply (in_map fst _ _ (dget_in _ _ _ G)).
Qed.
Lemma keys_dset {V} k (v : V) d n : In n (map fst (dset k v d)) -> n = k \/ In n (map fst d).
Proof.
  intros I. apply in_map_iff in I as ([k' v'] & <- & I). apply in_dset in I as [(-> & _)|I]; [left; reflexivity|right]. apply (in_map fst _ _ I).
Qed.
Lemma known_add d t n sp : Dn n -> known d -> known (add_effect d t n sp).
Proof.
  intros U K. unfold add_effect. destruct (dget n d) as [a|]; [|destruct (extend_only sp); [exact K|]];
    intros k I; apply keys_dset in I as [->|I]; try exact U; exact (K _ I).
Qed.
Lemma loop_known l : forall d e c r, known d -> foldM use_effect l (d, e, c) = Ok r -> known (fst (fst r)).
Proof.
  induction l as [|n l IH]; intros d e c r K E; cbn [foldM] in E; [injection E as <-; exact K|].
  apply bind_ok in E as ([[d1 e1] c1] & U & E). refine (IH _ _ _ _ _ E). unfold use_effect in U. apply bind_ok in U as (a & G & U). apply bind_ok in U as (e' & _ & U).
  destruct (dget n d) as [a0|] eqn:GG; [|discriminate G]. injection U as <- _ _. intros k I. apply K. rewrite dset_keys in I; [exact I|]. apply (in_map fst _ _ (dget_in _ _ _ GG)).
Qed.
Lemma compile_known prio t d deny n d' r : known d -> compile_effects prio t d deny n = Ok (d', r) -> known d'.
Proof.
  intros K E. unfold compile_effects in E. apply bind_ok in E as ([[d1 e1] c1] & L & E). injection E as <- _. exact (loop_known _ _ _ _ _ K L).
Qed.
Lemma init_same p : se_same (se_init p) (se_init p).
Proof. split; [reflexivity|]. split; [reflexivity|]. split; [reflexivity|]. right. split; intros x n []. Qed.
Lemma expire_same t st st' : se_same st st' -> se_same (expire_status_effects t st) (expire_status_effects t st').
Proof.
  intros (B & P & S & K). split; [|split; [exact P|split]].
  - cbn [expire_status_effects se_buffs]. rewrite B. reflexivity.
  - intros x. rewrite !get_expire, S. reflexivity.
  - destruct K as [H|[K K']]; [left; exact H|right]. split; intros x; rewrite get_expire; apply known_expire; [apply K|apply K'].
Qed.
Lemma set_buffs_same st st' d : se_same st st' -> se_same (set_buffs st d) (set_buffs st' d).
Proof. intros (B & P & K). split; [reflexivity|]. split; [exact P|exact K]. Qed.
Lemma set_debuffs_same st st' x d : se_same st st' -> home f \/ known d -> se_same (set_debuffs st x d) (set_debuffs st' (f x) d).
Proof.
  intros (B & P & S & K) Q. split; [exact B|]. split; [exact P|]. split.
  - intros y. rewrite !get_set, S, (eqb_as f inj). reflexivity.
  - destruct K as [H|[K K']]; [left; exact H|]. destruct Q as [H|Q]; [left; exact H|right].
    split; intros y; rewrite get_set; destruct (String.eqb _ _); auto.
Qed.
Lemma known_at st st' x : se_same st st' -> home f \/ known (get_debuffs st x).
Proof. intros (_ & _ & _ & [H|[K _]]); [left; exact H|right; apply K]. Qed.
Lemma expire_named_same st st' n t x : se_same st st' -> se_same (expire_named_effect st n t x) (expire_named_effect st' n t (f x)).
Proof.
  intros R. unfold expire_named_effect. cbv zeta. rewrite (proj1 R). pose proof R as (_ & _ & S & _).
  change (get_debuffs (set_buffs ?a ?b) ?y) with (get_debuffs a y). rewrite S.
  destruct (dget n (get_debuffs st x)) as [a|] eqn:G; [|apply set_buffs_same, R].
  apply set_debuffs_same; [apply set_buffs_same, R|]. destruct (known_at st st' x R) as [H|K]; [left; exact H|right; apply known_end, K].
Qed.
(** A buff ends named effects on the target called "Default Target", which has none of them. *)
Lemma expire_default_same st st' n t : home f \/ ~ Dn n -> se_same st st' -> se_same (expire_named_effect st n t DEFAULT_TARGET) (expire_named_effect st' n t DEFAULT_TARGET).
Proof.
  intros C R. assert (Z : home f \/ ~ home f) by (unfold home; destruct (string_dec (f DEFAULT_TARGET) DEFAULT_TARGET); auto).
  destruct Z as [H|NH]; [pose proof (expire_named_same st st' n t DEFAULT_TARGET R) as X; unfold home in H; rewrite H in X; exact X|].
  destruct C as [H|C]; [destruct (NH H)|]. pose proof R as (B & P & S & [H|[K K']]); [destruct (NH H)|].
  assert (G : forall d, known d -> dget n d = None).
  { intros d Q. destruct (dget n d) as [a|] eqn:E; [|reflexivity]. destruct C. apply Q. apply (in_map fst _ _ (dget_in _ _ _ E)). }
  unfold expire_named_effect. cbv zeta. change (get_debuffs (set_buffs ?a ?b) ?y) with (get_debuffs a y). rewrite !G by auto. rewrite B.
  apply set_buffs_same, R.
Qed.
Lemma apply_buff_same st st' t n sp : (forall k, In k (expires_status_effects sp) -> home f \/ ~ Dn k) ->
  se_same st st' -> se_same (apply_buff st t n sp) (apply_buff st' t n sp).
Proof.
  intros C R. unfold apply_buff. cbv zeta. rewrite (proj1 R). set (b0 := if clear_all_status_effects sp then _ else _).
  pose proof (set_buffs_same _ _ (add_effect b0 t n sp) R) as R1. revert R1. generalize (set_buffs st (add_effect b0 t n sp)), (set_buffs st' (add_effect b0 t n sp)).
  revert C. generalize (expires_status_effects sp). intros l. induction l as [|k l IH]; intros C a c Q; [exact Q|]. cbn [fold_left]. apply IH.
  - intros k' I. apply C. right. exact I.
  - apply expire_default_same; [apply C; left; reflexivity|exact Q].
Qed.
Lemma apply_debuff_same t n sp st st' x : home f \/ Dn n -> se_same st st' -> se_same (apply_debuff t n sp st x) (apply_debuff t n sp st' (f x)).
Proof.
  intros U R. unfold apply_debuff. rewrite <- (map_id (expires_status_effects sp)) at 2. apply fold_rel.
  - intros a c k K. apply expire_named_same, K.
  - pose proof R as (_ & _ & S & _). rewrite S. apply set_debuffs_same; [exact R|]. destruct U as [H|U]; [left; exact H|].
    destruct (known_at st st' x R) as [H|K]; [left; exact H|right; apply known_add; assumption].
Qed.
Lemma add_status_same st st' t s m tg :
  calm s -> se_same st st' -> rrel se_same (add_to_status_effects st t s m tg) (add_to_status_effects st' t s m (map f tg)).
Proof.
  intros C R. unfold add_to_status_effects. apply rrel_same. intros bu E0. apply rrel_same. intros de E. cbn [rrel].
  assert (R1 : se_same (match bu with Some sp => apply_buff st t (sk_name s) sp | None => st end)
                       (match bu with Some sp => apply_buff st' t (sk_name s) sp | None => st' end)).
  { destruct bu as [sp|]; [|exact R]. apply apply_buff_same; [|exact R]. intros k I. destruct C as [H|C]; [left; exact H|right; exact (proj2 C m sp k E0 I)]. }
  destruct de as [sp|]; [|exact R1]. apply fold_rel; [|exact R1]. intros a c x. apply apply_debuff_same.
  destruct C as [H|C]; [left; exact H|right; exact (proj2 (proj1 C m sp E))].
Qed.
Definition compiled_same (x y : se_tracker * (status_effects * string)) : Prop := se_same (fst x) (fst y) /\ snd y = snd x.
Lemma compile_buffs_same st st' t s : se_same st st' -> rrel compiled_same (compile_buffs st t s) (compile_buffs st' t s).
Proof.
  intros R. unfold compile_buffs. pose proof R as (B & P & _). rewrite B, P. apply rrel_same. intros [d r] _. cbn [rrel].
  split; [apply set_buffs_same, R|reflexivity].
Qed.
Lemma compile_debuffs_same st st' t s x : se_same st st' -> rrel compiled_same (compile_debuffs st t s x) (compile_debuffs st' t s (f x)).
Proof.
  intros R. unfold compile_debuffs. pose proof R as (_ & P & S & _). rewrite P, S. apply rrel_same. intros [d r] E. cbn [rrel].
  split; [|reflexivity]. cbn [fst]. apply set_debuffs_same; [exact R|]. destruct (known_at st st' x R) as [H|K]; [left; exact H|right; exact (compile_known _ _ _ _ _ _ _ K E)].
Qed.
Definition tk_same (tk tk' : trackers) : Prop :=
  se_same (tk_se tk) (tk_se tk') /\ tk_jr tk' = tk_jr tk /\ tk_combo tk' = tk_combo tk.
Lemma new_trackers_same lib job prio : rrel tk_same (new_trackers lib job prio) (new_trackers lib job prio).
Proof.
  unfold new_trackers. apply rrel_same. intros rs _. apply rrel_same. intros br _. split; [apply init_same|].
  split; reflexivity.
Qed.

(** ** Damage instances *)
Notation se_rel := se_same.
Notation tk_rel := tk_same.

Lemma inst_lt_as a b :
  (di_time a = di_time b -> di_id a = di_id b -> di_target a = di_target b) -> inst_lt (instance_as f a) (instance_as f b) = inst_lt a b.
Proof.
  intros H. unfold inst_lt. cbn [instance_as di_time di_skill di_modifier di_effects di_id di_target].
  destruct (Z.eqb_spec (di_time a) (di_time b)) as [T|]; [|reflexivity]. cbn [negb].
  destruct (negb (String.eqb _ _)); [reflexivity|]. destruct (negb (skill_eqb _ _)); [reflexivity|].
  destruct (negb (modifier_eqb _ _)); [reflexivity|]. destruct (negb (_ && _)); [reflexivity|].
  destruct (Z.eqb_spec (di_id a) (di_id b)) as [I|]; [|reflexivity]. cbn [negb]. rewrite (H T I), !str_ltb_irrefl. reflexivity.
Qed.
Lemma push_as out x : NoDup (out_hits (x :: out)) -> heappush inst_lt (map (instance_as f) out) (instance_as f x) = rmap (map (instance_as f)) (heappush inst_lt out x).
Proof.
  intros N. apply push_agree. intros y z Y Z. apply inst_lt_as. intros T I.
  assert (U : forall l : list instance, NoDup (out_hits l) -> In y l -> In z l -> y = z).
  { clear - T I. induction l as [|w l IH]; intros N Y Z; [destruct Y|]. inversion N as [|? ? N1 N2]; subst.
    destruct Y as [<-|Y], Z as [<-|Z]; [reflexivity| | |exact (IH N2 Y Z)].
    - destruct N1. rewrite T, I. apply (in_map (fun x => (di_id x, di_time x))), Z.
    - destruct N1. rewrite <- T, <- I. apply (in_map (fun x => (di_id x, di_time x))), Y. }
  rewrite (U _ N Y Z). reflexivity.
Qed.
Lemma out_hits_push out x h : heappush inst_lt out x = Ok h -> Permutation (out_hits h) ((di_id x, di_time x) :: out_hits out).
Proof. intros H. apply heappush_perm in H. symmetry. exact (Permutation_map (fun x => (di_id x, di_time x)) H). Qed.

Definition out_rel (pool : list (Z * Z)) (x y : se_tracker * list instance * modifier) : Prop :=
  se_rel (fst (fst x)) (fst (fst y)) /\ snd (fst y) = map (instance_as f) (snd (fst x)) /\ snd y = snd x
  /\ NoDup (pool ++ out_hits (snd (fst x))).
Lemma apply_target_rel n t s m bu sn id i x a b pool :
  out_rel ((id, target_time n t i) :: pool) a b ->
  rrel (out_rel pool) (apply_target n t s m bu sn id a (i, x)) (apply_target n t s m bu sn id b (i, f x)).
Proof.
  destruct a as [[se out] m0], b as [[se' out'] m0']. intros (S & O & M & N). cbn [fst snd] in *. subst out' m0'. unfold apply_target.
  apply rrel_bind with (R := fun a b => se_rel (fst (fst a)) (fst (fst b)) /\ snd (fst b) = snd (fst a) /\ snd b = snd a).
  { destruct sn as [k|e]; [|split; [exact S|split; reflexivity]].
    eapply rrel_bind; [apply (compile_debuffs_same _ _ t s x S)|]. intros [a [e c]] [a' y] _ [R E].
    cbn [fst snd] in *. subst y. split; [exact R|split; reflexivity]. }
  intros [[se1 de] m1] [[se1' de'] m1'] _ (R & E1 & E2). cbn [fst snd] in *. subst de' m1'.
  apply rrel_same. intros [sp|] _.
  - assert (N1 : NoDup (out_hits (mkInst (target_time n t i) s m1 (bu, de) id x :: out))).
    { cbn [out_hits map di_id di_time]. inversion N as [|? ? K1 K2]; subst. constructor.
      - intros I. apply K1. apply in_or_app. right. exact I.
      - clear - K2. induction pool as [|p pool IH]; [exact K2|]. apply IH. cbn [List.app] in K2. inversion K2; assumption. }
    change (mkInst (target_time n t i) s m1 (bu, de) id (f x)) with (instance_as f (mkInst (target_time n t i) s m1 (bu, de) id x)).
    rewrite push_as by exact N1. destruct (heappush inst_lt out _) as [h|] eqn:P; [|reflexivity]. cbn [rmap bind rrel].
    split; [exact R|]. split; [reflexivity|]. split; [reflexivity|]. cbn [fst snd].
    eapply Permutation_NoDup; [|exact N]. apply out_hits_push in P. rewrite P. cbn [di_id di_time List.app]. apply Permutation_middle.
  - cbn [rrel]. split; [exact R|]. split; [reflexivity|]. split; [reflexivity|]. cbn [fst snd]. inversion N; assumption.
Qed.
Lemma apply_fold_rel n t s m bu sn id l : forall a b pool,
  out_rel (hits_at id n t l ++ pool) a b ->
  rrel (out_rel pool) (foldM (apply_target n t s m bu sn id) l a) (foldM (apply_target n t s m bu sn id) (map (fun p => (fst p, f (snd p))) l) b).
Proof.
  induction l as [|[i x] l IH]; intros a b pool R; [exact R|]. cbn [map foldM fst snd].
  eapply rrel_bind; [apply apply_target_rel; exact R|]. intros a' b' _ R'. apply IH, R'.
Qed.

Lemma combo_positional_rel tk tk' t s m p :
  tk_rel tk tk' -> rrel (fun x y => tk_rel (fst x) (fst y) /\ snd y = snd x) (combo_and_positional tk t s m p) (combo_and_positional tk' t s m p).
Proof.
  intros (S & J & C). unfold combo_and_positional. destruct p; [split; [split; [exact S|split; assumption]|reflexivity]|]. rewrite C.
  apply rrel_same. intros [ct c] _. apply rrel_same. intros m' _. split; [|reflexivity]. split; [exact S|]. split; [exact J|reflexivity].
Qed.
Lemma conditional_rel tk tk' t s m k :
  tk_rel tk tk' -> tk_rel (fst (resource_conditional tk t s m k)) (fst (resource_conditional tk' t s m k))
  /\ snd (resource_conditional tk' t s m k) = snd (resource_conditional tk t s m k).
Proof.
  intros (S & J & C). unfold resource_conditional. destruct k; [split; [split; [exact S|split; assumption]|reflexivity]|]. rewrite J.
  destruct (compile_job_resources (tk_jr tk) t (sk_name s)) as [jr c]. split; [|reflexivity]. split; [exact S|]. split; [reflexivity|exact C].
Qed.
Lemma added_rel tk tk' t s m k : tk_rel tk tk' -> rrel tk_rel (resources_added tk t s m k) (resources_added tk' t s m k).
Proof.
  intros (S & J & C). unfold resources_added. destruct k; [split; [exact S|split; assumption]|]. rewrite J. apply rrel_same. intros jr _.
  split; [exact S|]. split; [reflexivity|exact C].
Qed.

Definition app_rel (pool : list (Z * Z)) (x y : trackers * list instance) : Prop :=
  tk_rel (fst x) (fst y) /\ snd y = map (instance_as f) (snd x) /\ NoDup (pool ++ out_hits (snd x)).
Lemma application_rel tk tk' out e pool :
  calm (ev_skill e) -> tk_rel tk tk' -> ev_secondary e = None -> NoDup (event_hits e ++ pool ++ out_hits out) ->
  rrel (app_rel pool) (application_event tk out e) (application_event tk' (map (instance_as f) out) (event_as f e)).
Proof.
  intros C T Sec N. unfold application_event. cbv zeta. cbn [event_as ev_primary ev_skill ev_modifier ev_snap ev_targets ev_id ev_jr_added ev_jr_cond ev_combo_cond].
  destruct (conditional_rel tk tk' (ev_primary e) (ev_skill e) (ev_modifier e) (ev_jr_cond e) T) as [T1 M1].
  destruct (resource_conditional tk _ _ _ _) as [tk1 m1], (resource_conditional tk' _ _ _ _) as [tk1' m1']. cbn [fst snd] in *. subst m1'.
  eapply rrel_bind; [apply added_rel, T1|]. intros tk2 tk2' _ T2.
  eapply rrel_bind; [apply combo_positional_rel, T2|]. intros [tk3 m2] [tk3' m2'] _ [T3 M2]. cbn [fst snd] in *. subst m2'.
  destruct T3 as (S3 & J3 & C3).
  apply rrel_bind with (R := fun a b => se_rel (fst (fst a)) (fst (fst b)) /\ snd (fst b) = snd (fst a) /\ snd b = snd a).
  { destruct (fst (ev_snap e)) as [k|x]; [|split; [exact S3|split; reflexivity]].
    eapply rrel_bind; [apply compile_buffs_same, S3|]. intros [a [x c]] [a' y] _ [R E]. cbn [fst snd] in *. subst y.
    split; [exact R|split; reflexivity]. }
  intros [[se1 bu] m3] [[se1' bu'] m3'] _ (S4 & E1 & E2). cbn [fst snd] in *. subst bu' m3'.
  rewrite map_length. unfold enumerate. rewrite enum_as.
  eapply rrel_bind.
  - apply (apply_fold_rel _ _ _ _ _ _ _ _ _ _ pool). split; [exact S4|]. split; [reflexivity|]. split; [reflexivity|]. cbn [fst snd].
    unfold event_hits, ev_time, enumerate in N. rewrite Sec in N. rewrite <- app_assoc. exact N.
  - intros [[se2 o2] m4] [[se2' o2'] m4'] _ (S5 & O & E & N'). cbn [fst snd] in *. subst o2' m4'.
    eapply rrel_bind; [apply add_status_same; [exact C|exact S5]|]. intros se3 se3' _ S6. cbn [rrel].
    split; [split; [exact S6|split; assumption]|]. split; [reflexivity|exact N'].
Qed.

Definition snap_rel (pool : list (Z * Z)) (x y : se_tracker * queue) : Prop :=
  se_rel (fst x) (fst y) /\ queue_rel (snd x) (snd y) /\ NoDup (queue_hits (q_heap (snd x)) ++ pool).
Lemma snapshot_target_rel n t app pr s m sn id jrc cc i x a b pool :
  calm s -> snap_rel ((id, target_time n app i) :: pool) a b ->
  rrel (snap_rel pool) (snapshot_target n t app pr s m sn id jrc cc a (i, x)) (snapshot_target n t app pr s m sn id jrc cc b (i, f x)).
Proof.
  destruct a as [se qu], b as [se' qu']. intros C (S & (EQ & Q) & N). cbn [fst snd] in *. subst qu'. unfold snapshot_target.
  apply rrel_bind with (R := fun a b => se_rel (fst (fst a)) (fst (fst b)) /\ snd (fst b) = snd (fst a) /\ snd b = snd a).
  { destruct (snd sn) as [[|]|e]; [|split; [exact S|split; reflexivity]|split; [exact S|split; reflexivity]].
    eapply rrel_bind; [apply (compile_debuffs_same _ _ t s x S)|]. intros [a [e c]] [a' y] _ [R E].
    cbn [fst snd] in *. subst y. split; [exact R|split; reflexivity]. }
  intros [[se1 sn1] m1] [[se1' sn1'] m1'] _ (R & E1 & E2). cbn [fst snd] in *. subst sn1' m1'.
  change [f x] with (map f [x]). rewrite q_add_as. destruct (q_add qu _ _ _ _ _ _ _ _ _ _ _) as [qu1|] eqn:A; [|reflexivity]. cbn [rmap bind rrel].
  split; [exact R|]. split; [split; [reflexivity|eapply q_add_calm; [exact Q|exact C|exact A]]|]. cbn [fst snd].
  unfold q_add in A. cbv zeta iota in A. apply bind_ok in A as (h & H & A). injection A as <-. cbn [q_heap].
  apply heappush_perm in H. apply queue_hits_perm in H. eapply Permutation_NoDup; [|exact N].
  rewrite <- H. cbn [queue_hits flat_map event_hits]. unfold event_hits. cbn [ev_id ev_targets ev_time ev_secondary ev_primary opt_is enumerate enum_from hits_at map fst snd List.length].
  assert (Z1 : target_time 1 (target_time n app i) 0 = target_time n app i) by (unfold target_time at 1; reflexivity).
  rewrite Z1. cbn [List.app]. symmetry. apply Permutation_middle.
Qed.
Lemma snapshot_fold_rel n t app pr s m sn id jrc cc l : calm s -> forall a b pool,
  snap_rel (hits_at id n app l ++ pool) a b ->
  rrel (snap_rel pool) (foldM (snapshot_target n t app pr s m sn id jrc cc) l a)
    (foldM (snapshot_target n t app pr s m sn id jrc cc) (map (fun p => (fst p, f (snd p))) l) b).
Proof.
  intros C. induction l as [|[i x] l IH]; intros a b pool R; [exact R|]. cbn [map foldM fst snd].
  eapply rrel_bind; [apply snapshot_target_rel; [exact C|exact R]|]. intros a' b' _ R'. apply IH, R'.
Qed.
Definition tkq_rel (pool : list (Z * Z)) (x y : trackers * queue) : Prop :=
  tk_rel (fst x) (fst y) /\ queue_rel (snd x) (snd y) /\ NoDup (queue_hits (q_heap (snd x)) ++ pool).
Lemma snapshot_rel tk tk' qu qu' e app pool :
  calm (ev_skill e) -> tk_rel tk tk' -> queue_rel qu qu' -> ev_secondary e = Some app ->
  NoDup (queue_hits (q_heap qu) ++ event_hits e ++ pool) ->
  rrel (tkq_rel pool) (snapshot_event tk qu e app) (snapshot_event tk' qu' (event_as f e) app).
Proof.
  intros C T Q Sec N. unfold snapshot_event. cbv zeta. cbn [event_as ev_priority ev_primary ev_skill ev_modifier ev_snap ev_targets ev_id ev_jr_added ev_jr_cond ev_combo_cond].
  destruct T as (S & J & K).
  apply rrel_bind with (R := fun a b => se_rel (fst (fst a)) (fst (fst b)) /\ snd (fst b) = snd (fst a) /\ snd b = snd a).
  { destruct (fst (ev_snap e)) as [[|]|x]; [|split; [exact S|split; reflexivity]|split; [exact S|split; reflexivity]].
    eapply rrel_bind; [apply compile_buffs_same, S|]. intros [a [x c]] [a' y] _ [R E]. cbn [fst snd] in *. subst y.
    split; [exact R|split; reflexivity]. }
  intros [[se1 sn0] m1] [[se1' sn0'] m1'] _ (S1 & E1 & E2). cbn [fst snd] in *. subst sn0' m1'. rewrite J, K.
  assert (T1 : tk_rel (mkTrackers se1 (tk_jr tk) (tk_combo tk)) (mkTrackers se1' (tk_jr tk) (tk_combo tk))) by (split; [exact S1|split; reflexivity]).
  set (skip := _ || _).
  destruct (conditional_rel _ _ (ev_primary e) (ev_skill e) m1 skip T1) as [T2 M2].
  destruct (resource_conditional (mkTrackers se1 _ _) _ _ _ _) as [tk2 m2], (resource_conditional (mkTrackers se1' _ _) _ _ _ _) as [tk2' m2']. cbn [fst snd] in *. subst m2'.
  eapply rrel_bind; [apply combo_positional_rel, T2|]. intros [tk3 m3] [tk3' m3'] _ [T3 M3]. cbn [fst snd] in *. subst m3'.
  eapply rrel_bind; [apply added_rel, T3|]. intros tk4 tk4' _ (S4 & J4 & K4).
  rewrite map_length. unfold enumerate. rewrite enum_as.
  eapply rrel_bind.
  - apply (snapshot_fold_rel _ _ _ _ _ _ _ _ _ _ _ C _ _ pool). split; [exact S4|]. split; [exact Q|]. cbn [fst snd].
    unfold event_hits, ev_time, enumerate in N. rewrite Sec in N. exact N.
  - intros [se2 q2] [se2' q2'] _ (S5 & Q5 & N5). cbn [fst snd] in *. cbn [rrel]. split; [split; [exact S5|split; assumption]|]. split; [exact Q5|exact N5].
Qed.

Definition all_rel (x y : trackers * queue * list instance) : Prop :=
  tk_rel (fst (fst x)) (fst (fst y)) /\ queue_rel (snd (fst x)) (snd (fst y)) /\ snd y = map (instance_as f) (snd x)
  /\ NoDup (queue_hits (q_heap (snd (fst x))) ++ out_hits (snd x)).
Lemma step_rel tk tk' qu qu' out e :
  calm (ev_skill e) -> tk_rel tk tk' -> queue_rel qu qu' -> NoDup (event_hits e ++ queue_hits (q_heap qu) ++ out_hits out) ->
  rrel all_rel (damage_step tk qu out e) (damage_step tk' qu' (map (instance_as f) out) (event_as f e)).
Proof.
  intros C (S & J & K) Q N. unfold damage_step. cbv zeta. change (ev_secondary (event_as f e)) with (ev_secondary e).
  change (ev_primary (event_as f e)) with (ev_primary e).
  assert (T : tk_rel (mkTrackers (expire_status_effects (ev_primary e) (tk_se tk)) (tk_jr tk) (tk_combo tk))
                     (mkTrackers (expire_status_effects (ev_primary e) (tk_se tk')) (tk_jr tk') (tk_combo tk'))).
  { split; [apply expire_same, S|]. split; assumption. }
  destruct (ev_secondary e) as [app|] eqn:Sec.
  - eapply rrel_bind; [apply (snapshot_rel _ _ qu qu' e app (out_hits out) C T Q Sec)|].
    + eapply Permutation_NoDup; [|exact N]. rewrite !app_assoc. apply Permutation_app_tail, Permutation_app_comm.
    + intros [a b] [a' b'] _ (A & B & D). cbn [fst snd] in *. split; [exact A|]. split; [exact B|]. split; [reflexivity|exact D].
  - eapply rrel_bind; [apply (application_rel _ _ out e (queue_hits (q_heap qu)) C T Sec N)|].
    intros [a b] [a' b'] _ (A & B & D). cbn [fst snd] in *. split; [exact A|]. split; [exact Q|]. split; [exact B|exact D].
Qed.
Lemma loop_rel fuel : forall tk tk' qu qu' out,
  tk_rel tk tk' -> queue_rel qu qu' -> NoDup (queue_hits (q_heap qu) ++ out_hits out) ->
  rrel all_rel (damage_loop fuel tk qu out) (damage_loop fuel tk' qu' (map (instance_as f) out)).
Proof.
  induction fuel as [|n IH]; intros tk tk' qu qu' out T [-> Q] N; cbn [damage_loop].
  - unfold q_is_empty. cbn [queue_as q_heap]. destruct (q_heap qu) eqn:E; cbn [map]; [|reflexivity].
    split; [exact T|]. split; [split; [reflexivity|exact Q]|]. split; [reflexivity|]. cbn [fst snd]. rewrite E. exact N.
  - assert (EM : q_is_empty (queue_as f qu) = q_is_empty qu) by (unfold q_is_empty; cbn [queue_as q_heap]; destruct (q_heap qu); reflexivity).
    rewrite EM. destruct (q_is_empty qu).
    { split; [exact T|]. split; [split; [reflexivity|exact Q]|]. split; [reflexivity|exact N]. }
    unfold q_get_next. cbn [queue_as q_heap q_next_id]. rewrite (heappop_map (event_as f) event_lt event_lt (event_lt_as f)).
    destruct (heappop event_lt (q_heap qu)) as [[e h]|] eqn:P; [|reflexivity]. cbn [rmap bind fst snd].
    apply heappop_perm in P.
    eapply rrel_bind; [apply (step_rel tk tk' (mkQueue h (q_next_id qu)) (mkQueue (map (event_as f) h) (q_next_id qu)) out e)|].
    + apply Q. apply (Permutation_in _ (Permutation_sym P)). left. reflexivity.
    + exact T.
    + split; [reflexivity|]. intros e' I. apply Q. apply (Permutation_in _ (Permutation_sym P)). right. exact I.
    + cbn [q_heap]. eapply Permutation_NoDup; [|exact N]. rewrite (queue_hits_perm _ _ P). cbn [queue_hits flat_map]. rewrite <- app_assoc. reflexivity.
    + intros [[a b] c] [[a' b'] c'] _ (A & B & D & F). cbn [fst snd] in *. subst c'. apply IH; assumption.
Qed.
Lemma fuel_as qu : damage_fuel (queue_as f qu) = damage_fuel qu.
Proof.
  unfold damage_fuel. cbn [queue_as q_heap]. induction (q_heap qu) as [|e l IH]; [reflexivity|]. cbn [map fold_right]. rewrite IH. f_equal.
  unfold event_weight. cbn [event_as ev_secondary ev_targets]. rewrite map_length. reflexivity.
Qed.
Lemma instances_rel tk tk' qu :
  tk_rel tk tk' -> calm_queue qu -> NoDup (map ev_id (q_heap qu)) ->
  rrel (fun x y => tk_rel (fst (fst x)) (fst (fst y)) /\ snd (fst y) = queue_as f (snd (fst x)) /\ snd y = map (instance_as f) (snd x))
    (get_damage_instances tk qu) (get_damage_instances tk' (queue_as f qu)).
Proof.
  intros T Q N. unfold get_damage_instances. rewrite fuel_as.
  eapply rrel_bind; [apply (loop_rel _ tk tk' qu (queue_as f qu) [] T)|].
  - split; [reflexivity|exact Q].
  - cbn [out_hits map]. rewrite app_nil_r. apply queue_hits_nodup, N.
  - intros [[a b] c] [[a' b'] c'] _ (A & (B & _) & D & _). cbn [fst snd] in *. subst c'. cbn [rrel fst snd]. split; [exact A|]. split; [exact B|].
    unfold sort_by. apply sort_lt_map. reflexivity.
Qed.

(** ** The simulator *)
Definition simulator_as (s : simulator) : simulator := mkSimulator (map (instance_as f) (ds_instances s)) (ds_tracker s) (ds_stats s).
Lemma ds_init_as st l : ds_init st (map (instance_as f) l) = rmap simulator_as (ds_init st l).
Proof.
  unfold ds_init. cbv zeta. assert (E : sort_by di_time (map (instance_as f) l) = map (instance_as f) (sort_by di_time l))
    by (unfold sort_by; apply sort_lt_map; reflexivity).
  rewrite E.
  assert (G : forall l0 a, foldM (compile_instance st) (map (instance_as f) l0) a = foldM (compile_instance st) l0 a).
  { induction l0 as [|x l0 IH]; intros a; [reflexivity|]. cbn [map foldM].
    change (compile_instance st a (instance_as f x)) with (compile_instance st a x). destruct (compile_instance st a x); [apply IH|reflexivity]. }
  rewrite G. destruct (foldM (compile_instance st) _ dt_init); reflexivity.
Qed.
Lemma fight_as l : fight_time (map (instance_as f) l) = fight_time l.
Proof.
  destruct l as [|x l]; [reflexivity|]. unfold fight_time. cbn [map].
  change (instance_as f x :: map (instance_as f) l) with (map (instance_as f) (x :: l)).
  rewrite (last_map (instance_as f) (x :: l) x). reflexivity.
Qed.
Lemma simulator_names sim n u u' : run_simulator (simulator_as sim) n u u' = rmap (report_as f) (run_simulator sim n u u').
Proof.
  unfold run_simulator. change (expected_and_variance (simulator_as sim) u) with (expected_and_variance sim u).
  destruct (expected_and_variance sim u) as [[ex va]|]; [|reflexivity]. cbn [bind].
  change (ds_tracker (simulator_as sim)) with (ds_tracker sim). destruct (compute_damage (ds_tracker sim) n u') as [m|]; [|reflexivity].
  cbn [bind rmap simulator_as ds_instances]. unfold report_as. cbn. rewrite fight_as, !map_map. reflexivity.
Qed.

Lemma db_init_rel st lib tk : db_init st lib = Ok tk -> tk_rel tk tk.
Proof.
  intros E. unfold db_init in E. apply bind_ok in E as (p & _ & E). pose proof (new_trackers_same lib (st_job st) p) as R. rewrite E in R. exact R.
Qed.
Lemma instances_as st lib tk b r :
  reachable b -> ties_agree b -> (forall s, plays b s -> calm s) -> get_skill_timing b = Ok r -> db_init st lib = Ok tk ->
  match get_damage_instances tk (b_queue r) with
  | Ok (_, _, out) => exists tk' qu', get_damage_instances tk (queue_as f (b_queue r)) = Ok (tk', qu', map (instance_as f) out)
  | Err e => get_damage_instances tk (queue_as f (b_queue r)) = Err e
  end.
Proof.
  intros B A N E D. pose proof (run_rel f inj Dn b A N) as R. rewrite E in R. destruct (get_skill_timing (builder_as f b)) as [r'|]; [|destruct R].
  destruct R as [_ Q]. destruct (timeline_prepared b r B E) as (_ & _ & ND & _).
  pose proof (instances_rel tk tk (b_queue r) (db_init_rel _ _ _ D) Q ND) as X.
  destruct (get_damage_instances tk (b_queue r)) as [[[a q1] out]|e], (get_damage_instances tk (queue_as f (b_queue r))) as [[[a' q1'] out']|e']; cbn in X; try destruct X.
  - exists a', q1'. destruct H0 as [_ ->]. reflexivity.
  - reflexivity.
Qed.
Lemma report_names b n u u' :
  reachable b -> ties_agree b -> (forall s, plays b s -> calm s) -> report_of (builder_as f b) n u u' = rmap (report_as f) (report_of b n u u').
Proof.
  intros B A N. unfold report_of. rewrite (run_as f inj Dn b A N). destruct (get_skill_timing b) as [r|] eqn:E; [|reflexivity]. cbn [rmap bind].
  cbn [builder_as b_stats b_library b_queue]. destruct (db_init (b_stats b) (b_library b)) as [tk|] eqn:D; [|reflexivity]. cbn [bind].
  pose proof (instances_as _ _ tk b r B A N E D) as X. destruct (get_damage_instances tk (b_queue r)) as [[[a q1] out]|e]; [|rewrite X; reflexivity].
  destruct X as (a' & q1' & ->). cbn [bind]. rewrite ds_init_as. destruct (ds_init (b_stats b) out); [|reflexivity]. cbn [rmap bind].
  apply simulator_names.
Qed.
End Names.
