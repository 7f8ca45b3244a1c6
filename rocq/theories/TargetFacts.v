(** * Everything in a run keeps to the names of the targets *)

From Coq Require Import ZArith QArith Qround List String Bool Lia Permutation.
From Verif Require Import Base BaseFacts Float Heap HeapFacts Strings Types Lookup Stats Library StatusEffect JobResource Combo Channeling
  Events EventsFacts Rotation DamageBuild Relabel TimelineFacts AutoProps MoveFacts MoveRun SpecReplay SpecShuffle SpecTarget.
Import ListNotations.
Open Scope string_scope.
Open Scope Z_scope.

(** ** Related results *)
Definition rrel {A B} (R : A -> B -> Prop) (x : res A) (y : res B) : Prop :=
  match x, y with Ok a, Ok b => R a b | Err e, Err e' => e = e' | _, _ => False end.
Lemma rrel_bind {A B C D} (R : A -> B -> Prop) (S : C -> D -> Prop) x y f g :
  rrel R x y -> (forall a b, x = Ok a -> R a b -> rrel S (f a) (g b)) -> rrel S (bind x f) (bind y g).
Proof. destruct x as [a|e], y as [b|e']; cbn; try tauto. intros H K. apply K; [reflexivity|exact H]. Qed.
Lemma rrel_same {A C D} (S : C -> D -> Prop) (x : res A) f g :
  (forall a, x = Ok a -> rrel S (f a) (g a)) -> rrel S (bind x f) (bind x g).
Proof. destruct x as [a|e]; cbn; [|reflexivity]. intros K. apply K. reflexivity. Qed.
Lemma rrel_eq {A} (x y : res A) : rrel eq x y -> x = y.
Proof. destruct x, y; cbn; try tauto; congruence. Qed.
Lemma rrel_rmap {A B} (f : A -> B) x y : rrel (fun a b => b = f a) x y <-> y = rmap f x.
Proof. destruct x, y; cbn; split; try tauto; try congruence; intros H; injection H as ->; reflexivity. Qed.
Lemma foldM_rel {A B C D} (R : A -> C -> Prop) (f : A -> B -> res A) (g : C -> D -> res C) (k : B -> D) l :
  (forall a c x, In x l -> R a c -> rrel R (f a x) (g c (k x))) ->
  forall a c, R a c -> rrel R (foldM f l a) (foldM g (map k l) c).
Proof.
  induction l as [|x l IH]; intros H a c I; [exact I|]. cbn [foldM map].
  eapply rrel_bind; [apply H; [left; reflexivity|exact I]|]. intros a' c' _ I'. apply IH; [|exact I'].
  intros a1 c1 y J. apply H. right. exact J.
Qed.
Lemma fold_rel {A B C D} (R : A -> C -> Prop) (f : A -> B -> A) (g : C -> D -> C) (k : B -> D) l :
  (forall a c x, R a c -> R (f a x) (g c (k x))) ->
  forall a c, R a c -> R (fold_left f l a) (fold_left g (map k l) c).
Proof. intros H. induction l as [|x l IH]; intros a c I; [exact I|]. cbn [fold_left map]. apply IH, H, I. Qed.

(** A heap treats its elements alike when they compare alike. *)
Lemma drain_through {T A B} (p : T -> A) (f : A -> B) (la : A -> A -> res bool) (lb : B -> B -> res bool) l n :
  (forall x y, lb (f (p x)) (f (p y)) = la (p x) (p y)) -> drain lb n (map f (map p l)) = rmap (map f) (drain la n (map p l)).
Proof.
  intros H. rewrite map_map, (drain_map (fun x => f (p x)) (fun x y => la (p x) (p y)) lb H), (drain_map p (fun x y => la (p x) (p y)) la) by reflexivity.
  destruct (drain _ n l) as [r|]; cbn [rmap]; [rewrite map_map|]; reflexivity.
Qed.
Lemma drain_agree {A B} (f : A -> B) (la : A -> A -> res bool) (lb : B -> B -> res bool) l n :
  (forall x y, In x l -> In y l -> lb (f x) (f y) = la x y) -> drain lb n (map f l) = rmap (map f) (drain la n l).
Proof.
  intros H.
  assert (G : forall k, (forall x, In x k -> In x l) -> exists l' : list {x : A | In x l}, map (@proj1_sig _ _) l' = k).
  { induction k as [|x k IH]; intros K; [exists []; reflexivity|]. destruct IH as (l' & L); [intros y I; apply K; right; exact I|].
    exists (exist _ x (K x (or_introl eq_refl)) :: l'). cbn [map proj1_sig]. rewrite L. reflexivity. }
  destruct (G l) as (l' & E); [trivial|].
  pose proof (drain_through (@proj1_sig _ _) f la lb l' n (fun x y => H _ _ (proj2_sig x) (proj2_sig y))) as D.
  rewrite E in D. exact D.
Qed.

Section Names.
Variable f : string -> string.
Hypothesis inj : keeps_apart f.

Lemma eqb_as x y : String.eqb (f x) (f y) = String.eqb x y.
Proof.
  destruct (String.eqb_spec x y) as [->|N]; [apply String.eqb_refl|]. apply String.eqb_neq. intros E. apply N, inj, E.
Qed.
Lemma dget_as {V} k (d : dict V) : dget (f k) (keys_as f d) = dget k d.
Proof. induction d as [|[k' v] d IH]; [reflexivity|]. cbn [keys_as map dget fst snd]. rewrite eqb_as. destruct (String.eqb k k'); [reflexivity|exact IH]. Qed.
Lemma dset_as {V} k (v : V) d : dset (f k) v (keys_as f d) = keys_as f (dset k v d).
Proof.
  induction d as [|[k' w] d IH]; [reflexivity|]. cbn [keys_as map dset fst snd]. rewrite eqb_as. destruct (String.eqb k k'); [reflexivity|].
  cbn [map fst snd]. f_equal. exact IH.
Qed.
Lemma smem_as x l : smem (f x) (map f l) = smem x l.
Proof.
  apply eq_true_iff_eq. rewrite !smem_spec. split.
  - intros I. apply in_map_iff in I as (y & E & I). apply inj in E. subst y. exact I.
  - apply in_map.
Qed.

(** ** Status effects *)
(** [Dn] holds of the names of debuffs. *)
Variable Dn : string -> Prop.
Definition home : Prop := f DEFAULT_TARGET = DEFAULT_TARGET.
Definition apart (s : skill) : Prop :=
  (forall m sp, get_debuff_spec s m = Ok (Some sp) -> untimely sp /\ Dn (sk_name s))
  /\ (forall m sp n, get_buff_spec s m = Ok (Some sp) -> In n (expires_status_effects sp) -> ~ Dn n).
Definition calm (s : skill) : Prop := home \/ apart s.
Definition quiet (d : dict active) : Prop := forall n a, In (n, a) d -> untimely (ac_spec a).
Definition se_rel (st st' : se_tracker) : Prop :=
  se_buffs st' = se_buffs st /\ se_priority st' = se_priority st
  /\ (home -> forall x, get_debuffs st' (f x) = get_debuffs st x)
  /\ (home \/ ((forall x, quiet (get_debuffs st x)) /\ (forall x, quiet (get_debuffs st' x)))).
(** The target [x], or the tracker's own default. *)
Definition same_target (x x' : string) : Prop := x' = f x \/ (x = DEFAULT_TARGET /\ x' = DEFAULT_TARGET).

Lemma get_set st x d y : get_debuffs (set_debuffs st x d) y = if String.eqb y x then d else get_debuffs st y.
Proof. unfold get_debuffs, set_debuffs. cbn [se_debuffs]. rewrite dget_dset. destruct (String.eqb y x); reflexivity. Qed.
Lemma get_expire t st x : get_debuffs (expire_status_effects t st) x = expire_effects t (get_debuffs st x).
Proof.
  unfold get_debuffs, expire_status_effects. cbn [se_debuffs]. change (map _ (se_debuffs st)) with (dmap (expire_effects t) (se_debuffs st)).
  rewrite dget_dmap. destruct (dget x (se_debuffs st)); reflexivity.
Qed.
Lemma in_dset {V} k (v : V) d k' v' : In (k', v') (dset k v d) -> (k' = k /\ v' = v) \/ In (k', v') d.
Proof.
  induction d as [|[k1 v1] d IH]; cbn [dset].
  - intros [E|[]]. injection E as -> ->. left; split; reflexivity.
  - destruct (String.eqb_spec k k1) as [->|N].
    + intros [E|I]; [injection E as -> ->; left; split; reflexivity|right; right; exact I].
    + intros [E|I]; [right; left; exact E|]. destruct (IH I) as [H|H]; [left; exact H|right; right; exact H].
Qed.
Lemma quiet_expire t d : quiet d -> quiet (expire_effects t d).
Proof. intros Q n a I. apply filter_In in I as [I _]. exact (Q n a I). Qed.
Lemma quiet_end d n t : quiet d -> quiet (end_effect d n t).
Proof.
  intros Q. unfold end_effect. destruct (dget n d) as [a|] eqn:G; [|exact Q]. apply dget_in in G. intros k v I.
  apply in_dset in I as [(-> & ->)|I]; [exact (Q _ _ G)|exact (Q _ _ I)].
Qed.
Lemma quiet_add d t n sp : untimely sp -> quiet d -> quiet (add_effect d t n sp).
Proof.
  intros U Q. unfold add_effect. destruct (dget n d) as [a|]; [|destruct (extend_only sp); [exact Q|]];
    intros k v I; apply in_dset in I as [(_ & ->)|I]; try exact U; exact (Q _ _ I).
Qed.
Lemma init_rel p : se_rel (se_init p) (se_init p).
Proof. split; [reflexivity|]. split; [reflexivity|]. split; [reflexivity|]. right. split; intros x n a []. Qed.
Lemma expire_rel t st st' : se_rel st st' -> se_rel (expire_status_effects t st) (expire_status_effects t st').
Proof.
  intros (B & P & S & K). split; [|split; [exact P|split]].
  - cbn [expire_status_effects se_buffs]. rewrite B. reflexivity.
  - intros H x. rewrite !get_expire, (S H). reflexivity.
  - destruct K as [H|[K K']]; [left; exact H|right]. split; intros x; rewrite get_expire; apply quiet_expire; [apply K|apply K'].
Qed.
Lemma set_buffs_rel st st' d : se_rel st st' -> se_rel (set_buffs st d) (set_buffs st' d).
Proof. intros (B & P & K). split; [reflexivity|]. split; [exact P|exact K]. Qed.
(** Changing the effects on a target. *)
Lemma set_debuffs_rel st st' x x' d d' :
  se_rel st st' -> same_target x x' -> (home -> d' = d) -> (home \/ (quiet d /\ quiet d')) -> se_rel (set_debuffs st x d) (set_debuffs st' x' d').
Proof.
  intros (B & P & S & K) T E Q. split; [exact B|]. split; [exact P|]. split.
  - intros H y. rewrite !get_set, (S H), (E H). assert (X : x' = f x) by (destruct T as [T|[-> ->]]; [exact T|symmetry; exact H]).
    rewrite X, eqb_as. reflexivity.
  - destruct K as [H|[K K']]; [left; exact H|]. destruct Q as [H|[Q Q']]; [left; exact H|right].
    split; intros y; rewrite get_set; destruct (String.eqb _ _); auto.
Qed.
Lemma get_rel st st' x x' : se_rel st st' -> same_target x x' -> home -> get_debuffs st' x' = get_debuffs st x.
Proof. intros (B & P & S & _) T H. destruct T as [->|[-> ->]]; [apply S, H|]. rewrite <- (S H DEFAULT_TARGET), H. reflexivity. Qed.
Lemma home_or_quiet st st' x x' : se_rel st st' -> home \/ (quiet (get_debuffs st x) /\ quiet (get_debuffs st' x')).
Proof. intros (_ & _ & _ & [H|[K K']]); [left; exact H|right; split; auto]. Qed.
Lemma end_same d n t : dget n d = None -> end_effect d n t = d.
Proof. unfold end_effect. intros ->. reflexivity. Qed.
(** Ending an effect on a target without it changes nothing. *)
Definition expire_always (st : se_tracker) (n : string) (t : Z) (x : string) : se_tracker :=
  set_debuffs (set_buffs st (end_effect (se_buffs st) n t)) x (end_effect (get_debuffs st x) n t).
Lemma rel_left st st' s1 : se_rel st st' -> se_buffs s1 = se_buffs st -> se_priority s1 = se_priority st ->
  (forall x, get_debuffs s1 x = get_debuffs st x) -> se_rel s1 st'.
Proof.
  intros (B & P & S & K) B1 P1 G. split; [rewrite B1; exact B|]. split; [rewrite P1; exact P|]. split.
  - intros H x. rewrite G. apply S, H.
  - destruct K as [H|[K K']]; [left; exact H|right]. split; [intros x; rewrite G; apply K|exact K'].
Qed.
Lemma rel_right st st' s1 : se_rel st st' -> se_buffs s1 = se_buffs st' -> se_priority s1 = se_priority st' ->
  (forall x, get_debuffs s1 x = get_debuffs st' x) -> se_rel st s1.
Proof.
  intros (B & P & S & K) B1 P1 G. split; [rewrite B1; exact B|]. split; [rewrite P1; exact P|]. split.
  - intros H x. rewrite G. apply S, H.
  - destruct K as [H|[K K']]; [left; exact H|right]. split; [exact K|intros x; rewrite G; apply K'].
Qed.
Lemma expire_named_is st n t x :
  se_buffs (expire_named_effect st n t x) = se_buffs (expire_always st n t x)
  /\ se_priority (expire_named_effect st n t x) = se_priority (expire_always st n t x)
  /\ forall y, get_debuffs (expire_named_effect st n t x) y = get_debuffs (expire_always st n t x) y.
Proof.
  unfold expire_named_effect, expire_always. cbv zeta. change (get_debuffs (set_buffs ?a ?b) x) with (get_debuffs a x).
  destruct (dget n (get_debuffs st x)) as [a|] eqn:G; [split; [|split]; reflexivity|]. split; [reflexivity|]. split; [reflexivity|].
  intros y. rewrite get_set, (end_same _ _ _ G). destruct (String.eqb_spec y x) as [->|N]; reflexivity.
Qed.
Lemma expire_named_rel st st' n t x x' :
  se_rel st st' -> same_target x x' -> se_rel (expire_named_effect st n t x) (expire_named_effect st' n t x').
Proof.
  intros R T. destruct (expire_named_is st n t x) as (B & P & G), (expire_named_is st' n t x') as (B' & P' & G').
  refine (rel_left _ _ _ (rel_right _ _ _ _ B' P' G') B P G). unfold expire_always. rewrite (proj1 R).
  apply set_debuffs_rel; [apply set_buffs_rel, R|exact T| |].
  - intros H. rewrite (get_rel _ _ _ _ R T H). reflexivity.
  - destruct (home_or_quiet _ _ x x' R) as [H|[Q Q']]; [left; exact H|right]. split; apply quiet_end; assumption.
Qed.
Lemma apply_buff_rel st st' t n sp : se_rel st st' -> se_rel (apply_buff st t n sp) (apply_buff st' t n sp).
Proof.
  intros R. unfold apply_buff. cbv zeta. rewrite (proj1 R). rewrite <- (map_id (expires_status_effects sp)) at 2.
  apply fold_rel; [|apply set_buffs_rel, R]. intros a c k H. apply expire_named_rel; [exact H|right; split; reflexivity].
Qed.
Lemma apply_debuff_rel t n sp st st' x :
  home \/ untimely sp -> se_rel st st' -> se_rel (apply_debuff t n sp st x) (apply_debuff t n sp st' (f x)).
Proof.
  intros U R. unfold apply_debuff. rewrite <- (map_id (expires_status_effects sp)) at 2. apply fold_rel.
  - intros a c k K. apply expire_named_rel; [exact K|left; reflexivity].
  - apply set_debuffs_rel; [exact R|left; reflexivity| |].
    + intros H. rewrite (get_rel _ _ x (f x) R (or_introl eq_refl) H). reflexivity.
    + destruct U as [H|U]; [left; exact H|]. destruct (home_or_quiet _ _ x (f x) R) as [H|[Q Q']]; [left; exact H|right].
      split; apply quiet_add; assumption.
Qed.
Lemma add_status_rel st st' t s m tg :
  calm s -> se_rel st st' -> rrel se_rel (add_to_status_effects st t s m tg) (add_to_status_effects st' t s m (map f tg)).
Proof.
  intros C R. unfold add_to_status_effects. apply rrel_same. intros bu _. apply rrel_same. intros de E. cbn [rrel].
  assert (R1 : se_rel (match bu with Some sp => apply_buff st t (sk_name s) sp | None => st end)
                      (match bu with Some sp => apply_buff st' t (sk_name s) sp | None => st' end)).
  { destruct bu; [apply apply_buff_rel, R|exact R]. }
  destruct de as [sp|]; [|exact R1]. apply fold_rel; [|exact R1]. intros a c x. apply apply_debuff_rel.
  destruct C as [H|C]; [left; exact H|right; exact (proj1 (proj1 C m sp E))].
Qed.
(** Compiling debuffs that time nothing. *)
Lemma untimed_merge e sp : untimely sp -> ef_haste_mult e = 1%Q -> ef_auto_delay_mult e = 1%Q -> ef_crit e = F_DEFAULT -> ef_dh e = F_DEFAULT ->
  exists e', merge_effect e sp = Ok e' /\ ef_haste_mult e' = 1%Q /\ ef_auto_delay_mult e' = 1%Q /\ ef_crit e' = F_DEFAULT /\ ef_dh e' = F_DEFAULT.
Proof.
  intros (H & A & _ & C & X) EH EA EC ED. unfold merge_effect. rewrite C, X, H, A, EH, EA, EC, ED. eexists. split; [reflexivity|].
  cbn [ef_haste_mult ef_auto_delay_mult ef_crit ef_dh]. split; [vm_compute; reflexivity|]. split; [vm_compute; reflexivity|]. split; reflexivity.
Qed.
Lemma remove_first_in x l y : In y (remove_first x l) -> In y l.
Proof. induction l as [|z l IH]; [intros []|]. cbn [remove_first]. destruct (String.eqb x z); [right; assumption|]. intros [->|I]; [left; reflexivity|right; auto]. Qed.
Lemma lower_in prio l y : In y (delete_lower_priority prio l) -> In y l.
Proof.
  revert l. induction prio as [|p prio IH]; intros l; cbn [delete_lower_priority]; [auto|]. destruct (smem p l); [|apply IH]. clear IH.
  revert l. induction prio as [|q0 prio IH]; intros l; cbn [fold_left]; [auto|]. intros I. apply IH in I. exact (remove_first_in _ _ _ I).
Qed.
Definition same_keys {V} (d d' : dict V) : Prop := map fst d' = map fst d.
Lemma dset_keys {V} k (v : V) d : In k (map fst d) -> same_keys d (dset k v d).
Proof.
  unfold same_keys. induction d as [|[k1 v1] d IH]; [intros []|]. cbn [map fst dset]. intros I. destruct (String.eqb_spec k k1) as [->|N]; [reflexivity|].
  cbn [map fst]. f_equal. apply IH. destruct I as [E|I]; [congruence|exact I].
Qed.
Lemma dget_key {V} k (d : dict V) : In k (map fst d) -> exists v, dget k d = Some v.
Proof.
  induction d as [|[k1 v1] d IH]; [intros []|]. cbn [map fst dget]. intros I. destruct (String.eqb_spec k k1) as [->|N]; [eexists; reflexivity|].
  apply IH. destruct I as [E|I]; [congruence|exact I].
Qed.
Lemma untimed_loop l : forall d e c,
  quiet d -> (forall n, In n l -> In n (map fst d)) -> ef_haste_mult e = 1%Q -> ef_auto_delay_mult e = 1%Q -> ef_crit e = F_DEFAULT -> ef_dh e = F_DEFAULT ->
  exists d' e', foldM use_effect l (d, e, c) = Ok (d', e', c) /\ quiet d' /\ ef_haste_mult e' = 1%Q /\ ef_auto_delay_mult e' = 1%Q.
Proof.
  induction l as [|n l IH]; intros d e c Q K EH EA EC ED; cbn [foldM]; [exists d, e; auto|].
  destruct (dget_key n d (K n (or_introl eq_refl))) as (a & G). unfold use_effect at 1. rewrite G. cbn [of_option bind].
  pose proof (Q _ _ (dget_in _ _ _ G)) as U. destruct (untimed_merge e (ac_spec a) U EH EA EC ED) as (e1 & -> & H1 & H2 & H3 & H4). cbn [bind].
  rewrite (proj1 (proj2 (proj2 U))). apply IH; try assumption.
  - intros k v I. apply in_dset in I as [(_ & ->)|I]; [exact U|exact (Q _ _ I)].
  - intros k I. rewrite dset_keys by (apply K; left; reflexivity). apply K. right. exact I.
Qed.
Lemma untimed_compile prio t d deny n :
  quiet d -> exists d' e, compile_effects prio t d deny n = Ok (d', (e, "")) /\ quiet d' /\ ef_haste_mult e = 1%Q /\ ef_auto_delay_mult e = 1%Q.
Proof.
  intros Q. unfold compile_effects. cbv zeta. set (names := delete_lower_priority _ _).
  destruct (untimed_loop names d no_effects [] Q) as (d' & e & E & Q' & H & A); try reflexivity.
  - intros k I. apply lower_in in I. unfold valid_status_effects in I. apply in_map_iff in I as (x & <- & I). apply filter_In in I as [I _]. apply in_map, I.
  - rewrite E. cbn [bind]. exists d', (set_names e names). split; [reflexivity|]. split; [exact Q'|]. split; [exact H|exact A].
Qed.
(** The results agree in what the builder reads. *)
Definition compiled_rel (x y : se_tracker * (status_effects * string)) : Prop := se_rel (fst x) (fst y) /\ snd y = snd x.
Definition times_same (e e' : status_effects) : Prop := ef_haste_mult e' = ef_haste_mult e /\ ef_auto_delay_mult e' = ef_auto_delay_mult e.
Definition timed_rel0 (x y : se_tracker * (status_effects * string)) : Prop :=
  se_rel (fst x) (fst y) /\ times_same (fst (snd x)) (fst (snd y)) /\ snd (snd y) = snd (snd x).
Lemma compile_buffs_rel st st' t s : se_rel st st' -> rrel compiled_rel (compile_buffs st t s) (compile_buffs st' t s).
Proof.
  intros R. unfold compile_buffs. pose proof R as (B & P & _). rewrite B, P. apply rrel_same. intros [d r] _. cbn [rrel].
  split; [apply set_buffs_rel, R|reflexivity].
Qed.
Lemma compile_debuffs_rel st st' t s x x' :
  se_rel st st' -> same_target x x' -> rrel timed_rel0 (compile_debuffs st t s x) (compile_debuffs st' t s x').
Proof.
  intros R T. unfold compile_debuffs. pose proof R as (_ & P & _). rewrite P.
  destruct (home_or_quiet _ _ x x' R) as [H|[Q Q']].
  - rewrite (get_rel _ _ _ _ R T H). apply rrel_same.
    intros [d r] _. cbn [rrel]. split; [|split; [split|]; reflexivity]. cbn [fst]. apply set_debuffs_rel; [exact R|exact T|reflexivity|left; exact H].
  - destruct (untimed_compile (se_priority st) t _ (sk_denylist s) (sk_name s) Q) as (d & e & E & Q1 & H1 & A1).
    destruct (untimed_compile (se_priority st) t _ (sk_denylist s) (sk_name s) Q') as (d' & e' & E' & Q1' & H1' & A1').
    assert (X : home -> d' = d).
    { intros H. rewrite (get_rel _ _ _ _ R T H), E in E'. congruence. }
    rewrite E, E'. cbn [bind rrel]. split; [|split; [split|reflexivity]]; cbn [fst snd]; [|congruence|congruence].
    apply set_debuffs_rel; [exact R|exact T|exact X|right; split; assumption].
Qed.

(** ** Trackers *)
Definition tk_rel (tk tk' : trackers) : Prop :=
  se_rel (tk_se tk) (tk_se tk') /\ tk_jr tk' = tk_jr tk /\ tk_combo tk' = tk_combo tk.
Lemma new_trackers_rel lib job prio : rrel tk_rel (new_trackers lib job prio) (new_trackers lib job prio).
Proof.
  unfold new_trackers. apply rrel_same. intros rs _. apply rrel_same. intros br _. split; [apply init_rel|].
  split; reflexivity.
Qed.
Definition press_rel (x y : trackers * modifier * status_effects * status_effects) : Prop :=
  let '(tk, m, b, e) := x in let '(tk', m', b', e') := y in tk_rel tk tk' /\ m' = m /\ b' = b /\ times_same e e'.
Lemma compile_press_rel tk tk' t s m : tk_rel tk tk' -> rrel press_rel (compile_press tk t s m) (compile_press tk' t s m).
Proof.
  intros (R & J & C). unfold compile_press. cbv zeta. rewrite J, C.
  eapply rrel_bind; [apply compile_buffs_rel, expire_rel, R|]. intros [se1 [bu mb]] [se1' x] _ [R1 E]. cbn [fst snd] in *. subst x.
  eapply rrel_bind; [apply (compile_debuffs_rel _ _ t s DEFAULT_TARGET DEFAULT_TARGET R1); right; split; reflexivity|].
  intros [se2 [de md]] [se2' [de' md']] _ (R2 & TS & E). cbn [fst snd] in *. subst md'.
  destruct (compile_job_resources (tk_jr tk) t (sk_name s)) as [jr mj].
  apply rrel_same. intros [ct mc] _. cbn [rrel press_rel]. split; [|split; [|split]; try reflexivity; exact TS].
  split; [exact R2|]. split; reflexivity.
Qed.
Lemma recast_rel st ts bu de de' : times_same de de' -> get_recast_time st ts bu de' = get_recast_time st ts bu de.
Proof. intros [H _]. unfold get_recast_time. rewrite H. reflexivity. Qed.

(** ** The queue *)
Definition calm_queue (qu : queue) : Prop := forall e, In e (q_heap qu) -> calm (ev_skill e).
Lemma event_ltb_as a b : event_ltb (event_as f a) (event_as f b) = event_ltb a b.
Proof. reflexivity. Qed.
Lemma event_lt_as a b : event_lt (event_as f a) (event_as f b) = event_lt a b.
Proof. reflexivity. Qed.
Lemma q_add_as qu p t o s m sn id a b c tg :
  q_add (queue_as f qu) p t o s m sn id a b c (map f tg) = rmap (queue_as f) (q_add qu p t o s m sn id a b c tg).
Proof.
  unfold q_add. change (q_next_id (queue_as f qu)) with (q_next_id qu).
  change (q_heap (queue_as f qu)) with (map (event_as f) (q_heap qu)).
  destruct (match id with None => _ | Some i => _ end) as [eid nx]. cbv zeta.
  match goal with |- bind (heappush _ _ ?e) _ = rmap _ (bind (heappush _ _ ?e') _) => change e with (event_as f e') end.
  rewrite (heappush_map (event_as f) event_lt event_lt event_lt_as). destruct (heappush event_lt (q_heap qu) _); reflexivity.
Qed.
Lemma q_add_new_as qu p t o s m sn tg :
  q_add_new (queue_as f qu) p t o s m sn (map f tg) = rmap (queue_as f) (q_add_new qu p t o s m sn tg).
Proof. apply q_add_as. Qed.
Lemma q_add_calm qu p t o s m sn id a b c tg qu' :
  calm_queue qu -> calm s -> q_add qu p t o s m sn id a b c tg = Ok qu' -> calm_queue qu'.
Proof.
  intros Q C E. unfold q_add in E. destruct (match id with None => _ | Some i => _ end) as [eid nx]. cbv zeta in E.
  apply bind_ok in E as (h & H & E). injection E as <-. apply heappush_perm in H. intros e I. cbn [q_heap] in I.
  apply (Permutation_in _ (Permutation_sym H)) in I. destruct I as [<-|I]; [exact C|apply Q, I].
Qed.
Definition queue_rel (qu qu' : queue) : Prop := qu' = queue_as f qu /\ calm_queue qu.
Lemma q_add_new_rel qu qu' p t o s m sn tg :
  queue_rel qu qu' -> calm s -> rrel queue_rel (q_add_new qu p t o s m sn tg) (q_add_new qu' p t o s m sn (map f tg)).
Proof.
  intros [-> Q] C. rewrite q_add_new_as. destruct (q_add_new qu p t o s m sn tg) as [r|] eqn:E; cbn [rmap rrel]; [|reflexivity].
  split; [reflexivity|]. exact (q_add_calm _ _ _ _ _ _ _ _ _ _ _ _ _ Q C E).
Qed.

(** ** One skill *)
Definition calm_dots (ds : dots) : Prop := forall k l fu es, In (k, l) ds -> In (fu, es) l -> calm (fu_skill fu).
Definition sim_rel (sm sm' : sim) : Prop :=
  queue_rel (si_queue sm) (si_queue sm') /\ (si_dots sm' = keys_as f (si_dots sm) /\ calm_dots (si_dots sm))
  /\ tk_rel (si_tk sm) (si_tk sm').
Lemma in_add_dot fu e l fu' es : In (fu', es) (add_dot_entry fu e l) -> fu' = fu \/ exists es', In (fu', es') l.
Proof.
  induction l as [|[fu1 es1] l IH]; cbn [add_dot_entry].
  - intros [E|[]]. injection E as -> _. left; reflexivity.
  - destruct (follow_up_eqb fu fu1).
    + intros [E|I]; right; [injection E as -> _; exists es1; left; reflexivity|exists es; right; exact I].
    + intros [E|I]; [right; exists es; left; exact E|]. destruct (IH I) as [H|(es' & H)]; [left; exact H|right; exists es'; right; exact H].
Qed.
Lemma add_dot_target_rel fu e ds x :
  calm (fu_skill fu) -> calm_dots ds ->
  add_dot_target fu e (keys_as f ds) (f x) = keys_as f (add_dot_target fu e ds x) /\ calm_dots (add_dot_target fu e ds x).
Proof.
  intros C Q. unfold add_dot_target. rewrite dget_as, dset_as. split; [reflexivity|]. intros k l fu' es I J.
  apply in_dset in I as [(-> & ->)|I]; [|exact (Q _ _ _ _ I J)]. apply in_add_dot in J as [->|(es' & J)]; [exact C|].
  destruct (dget x ds) as [l'|] eqn:G; [|destruct J]. apply dget_in in G. exact (Q _ _ _ _ G J).
Qed.
Lemma hd_error_as (l : list string) : hd_error (map f l) = option_map f (hd_error l).
Proof. destruct l; reflexivity. Qed.
Lemma non_dot_rel sm sm' fu k ps pa tg :
  calm (fu_skill fu) -> sim_rel sm sm' ->
  rrel sim_rel (process_non_dot_follow_up sm fu k ps pa tg) (process_non_dot_follow_up sm' fu k ps pa (map f tg)).
Proof.
  intros C (Q & D & S & J & T). unfold process_non_dot_follow_up. cbv zeta.
  destruct (if fu_snap_buffs fu || fu_snap_debuffs fu then (ps, _) else _) as [st sn].
  apply rrel_bind with (R := fun a b => b = map f a).
  { destruct (fu_primary_only fu); [|reflexivity]. rewrite hd_error_as. destruct (hd_error tg); reflexivity. }
  intros tg' ? _ ->. eapply rrel_bind; [apply q_add_new_rel; [exact Q|exact C]|]. intros qu qu' _ Q'.
  eapply rrel_bind; [apply add_status_rel; [exact C|exact S]|]. intros se se' _ S'. rewrite J, T. apply rrel_same. intros jr _.
  cbn [rrel]. split; [exact Q'|]. split; [exact D|]. split; [exact S'|]. split; reflexivity.
Qed.
Lemma follow_up_rel ps pa tg sm sm' ifu :
  calm (fu_skill (snd ifu)) -> sim_rel sm sm' -> rrel sim_rel (process_follow_up ps pa tg sm ifu) (process_follow_up ps pa (map f tg) sm' ifu).
Proof.
  destruct ifu as [i fu]. cbn [snd]. intros C R. unfold process_follow_up. destruct (fu_dot fu); [|apply non_dot_rel; assumption].
  destruct R as (Q & (D & K) & T). cbn [rrel]. split; [exact Q|]. split; [|exact T]. cbn [si_dots]. rewrite D.
  apply (fold_rel (fun d d' => d' = keys_as f d /\ calm_dots d)); [|split; [reflexivity|exact K]].
  intros a c x [-> A]. apply add_dot_target_rel; assumption.
Qed.
Definition calm_press (s : skill) : Prop := calm s /\ forall m l fu, get_follow_up_skills s m = Ok l -> In fu l -> calm (fu_skill fu).
Lemma calm_pressed s : calm_press s -> calm s.
Proof. intros [H _]. exact H. Qed.
Lemma calm_follow s m l fu : calm_press s -> get_follow_up_skills s m = Ok l -> In fu l -> calm (fu_skill fu).
Proof. intros [_ H] E I. exact (H _ _ _ E I). Qed.
Lemma skill_rel st sm sm' t s m bu tg :
  calm_press s -> sim_rel sm sm' -> rrel sim_rel (process_skill st sm t s m bu tg) (process_skill st sm' t s m bu (map f tg)).
Proof.
  intros C (Q & D & S & J & T). pose proof (calm_pressed _ C) as C0. unfold process_skill. apply rrel_same. intros ts _. apply rrel_same. intros cast _.
  apply rrel_same. intros [sn ap] _. eapply rrel_bind; [apply q_add_new_rel; [exact Q|exact C0]|]. intros qu qu' _ Q'.
  eapply rrel_bind; [apply add_status_rel; [exact C0|exact S]|]. intros se se' _ S'. rewrite J, T. apply rrel_same. intros jr _.
  apply rrel_same. intros fus F. rewrite <- (map_id (enumerate fus)) at 2. apply foldM_rel.
  - intros a c ifu I R. apply follow_up_rel; [|exact R]. apply (calm_follow s m fus); [exact C|exact F|].
    rewrite <- (enum_from_snd 0 fus). apply in_map. exact I.
  - split; [exact Q'|]. split; [exact D|]. split; [exact S'|]. split; reflexivity.
Qed.

(** ** Presses *)
Definition stamp_as (x : Z * string) : Z * string := (fst x, f (snd x)).
Definition pass_rel (p p' : pass) : Prop :=
  sim_rel (pa_sim p) (pa_sim p') /\ pa_press p' = pa_press p /\ pa_stamps p' = map stamp_as (pa_stamps p).
Lemma timed_rel st p p' x :
  calm_press (tm_skill x) -> pass_rel p p' -> rrel pass_rel (process_timed st p x) (process_timed st p' (timed_as f x)).
Proof.
  intros C ((Q & D & T) & P & S). unfold process_timed. cbv zeta. cbn [timed_as tm_time tm_skill tm_modifier tm_job tm_targets].
  eapply rrel_bind; [apply compile_press_rel, T|]. intros [[[tk m1] bu] de] [[[tk' m1'] bu'] de'] _ (T' & -> & -> & TS).
  apply rrel_same. intros m2 _. apply rrel_bind with (R := fun a b => b = f a).
  { rewrite hd_error_as. destruct (hd_error (tm_targets x)); reflexivity. }
  intros main ? _ ->. eapply rrel_bind; [apply skill_rel; [exact C|]|].
  - split; [exact Q|]. split; [exact D|exact T'].
  - intros sm sm' _ R. cbn [rrel]. split; [exact R|]. cbn [pa_press pa_stamps]. rewrite P, S, map_app. split; reflexivity.
Qed.
Definition seq_rel (ss ss' : seq_state) : Prop :=
  pass_rel (ss_pass ss) (ss_pass ss') /\ ss_t ss' = ss_t ss /\ ss_next_gcd ss' = ss_next_gcd ss.
Lemma process_seq_rel st ss ss' x :
  calm_press (sq_skill x) -> seq_rel ss ss' -> rrel seq_rel (process_seq st ss x) (process_seq st ss' (seq_as f x)).
Proof.
  intros C (((Q & D & T) & P & S) & N & G). unfold process_seq. cbv zeta. cbn [seq_as sq_skill sq_modifier sq_job sq_targets].
  rewrite N, G. set (t := press_time _ _ _).
  eapply rrel_bind; [apply compile_press_rel, T|]. intros [[[tk m1] bu] de] [[[tk' m1'] bu'] de'] _ (T' & -> & -> & TS).
  apply rrel_same. intros m2 _. apply rrel_same. intros ts _. apply rrel_bind with (R := fun a b => b = f a).
  { rewrite hd_error_as. destruct (hd_error (sq_targets x)); reflexivity. }
  intros main ? _ ->. eapply rrel_bind; [apply skill_rel; [exact C|]|].
  - split; [exact Q|]. split; [exact D|exact T'].
  - intros sm sm' _ R. apply rrel_same. intros ts' _.
    assert (K : pass_rel
      {| pa_sim := sm; pa_press := pa_press (ss_pass ss) ++ [press_of (st_job st) t (sq_skill x) (sq_modifier x) (sq_job x)];
         pa_stamps := pa_stamps (ss_pass ss) ++ [(t, main)] |}
      {| pa_sim := sm'; pa_press := pa_press (ss_pass ss') ++ [press_of (st_job st) t (sq_skill x) (sq_modifier x) (sq_job x)];
         pa_stamps := pa_stamps (ss_pass ss') ++ [(t, f main)] |}).
    { split; [exact R|]. cbn [pa_press pa_stamps]. rewrite P, S, map_app. split; reflexivity. }
    destruct (sk_is_GCD (sq_skill x)).
    + rewrite (recast_rel _ _ _ _ _ TS). apply rrel_same. intros rc _. apply rrel_same. intros ct _. cbn [rrel]. split; [exact K|]. split; reflexivity.
    + cbn [rrel]. split; [exact K|]. split; reflexivity.
Qed.
Lemma strs_ltb_same l : strs_ltb l l = false.
Proof. induction l as [|x l IH]; [reflexivity|]. cbn [strs_ltb]. rewrite String.eqb_refl. exact IH. Qed.
Lemma timed_lt_as x y :
  (tm_time x = tm_time y -> sk_name (tm_skill x) = sk_name (tm_skill y) -> tm_targets x = tm_targets y) ->
  timed_lt (timed_as f x) (timed_as f y) = timed_lt x y.
Proof.
  intros H. unfold timed_lt. cbn [timed_as tm_time tm_skill tm_modifier tm_job tm_targets].
  destruct (Z.eqb_spec (tm_time x) (tm_time y)) as [T|]; [|reflexivity]. cbn [negb].
  destruct (String.eqb_spec (sk_name (tm_skill x)) (sk_name (tm_skill y))) as [N|]; [|reflexivity]. cbn [negb].
  rewrite (H T N), !strs_ltb_same. reflexivity.
Qed.

(** ** DoTs *)
Definition count_rel (x y : queue * Z) : Prop := queue_rel (fst x) (fst y) /\ snd y = snd x.
Lemma add_tick_rel fu tg last sn pm x x' t :
  calm (fu_skill fu) -> count_rel x x' -> rrel count_rel (add_tick fu tg last sn pm x t) (add_tick fu (f tg) last sn pm x' t).
Proof.
  intros C [Q N]. destruct x as [qu n], x' as [qu' n']. cbn [fst snd] in *. subst n'. unfold add_tick.
  destruct (is_trailing last t); [split; [exact Q|reflexivity]|].
  eapply rrel_bind; [apply (q_add_new_rel _ _ _ _ _ _ _ _ [tg] Q C)|]. intros a b _ R. split; [exact R|reflexivity].
Qed.
Lemma add_dot_rel sv tg last qu qu' x :
  calm (fu_skill (fst x)) -> queue_rel qu qu' -> rrel queue_rel (add_dot sv tg last qu x) (add_dot sv (f tg) last qu' x).
Proof.
  intros C Q. destruct x as [fu es]. cbn [fst] in C. unfold add_dot. apply rrel_same. intros dur _. set (ws := consolidate _).
  eapply rrel_bind with (R := count_rel).
  - rewrite <- (map_id ws) at 2. apply foldM_rel; [|split; [exact Q|reflexivity]]. intros a c [[[s e] sn] pm] _ R. unfold add_dot_window.
    rewrite <- (map_id (range_step _ _ _)) at 2. apply foldM_rel; [|exact R]. intros a1 c1 t _ R1. apply add_tick_rel; assumption.
  - intros [a n] [a' n'] _ [R _]. exact R.
Qed.
Lemma all_dots_rel sv ds last qu qu' :
  calm_dots ds -> queue_rel qu qu' -> rrel queue_rel (process_all_dots sv ds last qu) (process_all_dots sv (keys_as f ds) last qu').
Proof.
  intros C Q. unfold process_all_dots, keys_as. apply foldM_rel; [|exact Q]. intros a c [k l] I R. cbn [fst snd].
  rewrite <- (map_id l) at 2. apply foldM_rel; [|exact R]. intros a1 c1 [fu es] J R1. apply add_dot_rel; [|exact R1]. exact (C _ _ _ _ I J).
Qed.

(** ** Autos *)
Lemma get_q_as qu : get_q (queue_as f qu) = map (event_as f) (get_q qu).
Proof. unfold get_q. cbn [queue_as q_heap]. apply sort_lt_map, event_ltb_as. Qed.
Lemma speed_as qu : speed_timeline (queue_as f qu) = speed_timeline qu.
Proof.
  unfold speed_timeline. rewrite get_q_as.
  rewrite (mapM_map2 (fun e => let* bs := get_buff_spec (ev_skill e) (ev_modifier e) in
              let* ds := get_debuff_spec (ev_skill e) (ev_modifier e) in
              Ok (if has_speed bs || has_speed ds then [(ev_time e, ev_skill e)] else [])) _ _ (fun x => x)).
  - destruct (mapM _ (get_q qu)) as [l|]; [|reflexivity]. cbn [rmap bind]. rewrite map_id. reflexivity.
  - intros e. cbn [event_as ev_skill ev_modifier]. change (ev_time (event_as f e)) with (ev_time e).
    destruct (get_buff_spec _ _) as [bs|]; [|reflexivity]. cbn [bind]. destruct (get_debuff_spec _ _) as [ds|]; reflexivity.
Qed.
Lemma mapM_in {A B} (g : A -> res B) l r y : mapM g l = Ok r -> In y r -> exists x, In x l /\ g x = Ok y.
Proof.
  revert r. induction l as [|x l IH]; intros r E I; cbn [mapM] in E.
  - injection E as <-. destruct I.
  - apply bind_ok in E as (z & Z & E). apply bind_ok in E as (r' & E' & E). injection E as <-. destruct I as [<-|I].
    + exists x. split; [left; reflexivity|exact Z].
    + destruct (IH r' E' I) as (x' & X & G). exists x'. split; [right; exact X|exact G].
Qed.
Lemma speed_calm qu tl x : calm_queue qu -> speed_timeline qu = Ok tl -> In x tl -> calm (snd x).
Proof.
  intros C E I. unfold speed_timeline in E. apply bind_ok in E as (l & L & E). injection E as <-.
  apply (Permutation_in _ (sort_by_perm _ _)) in I. apply in_concat in I as (y & Y & I).
  destruct (mapM_in _ _ _ _ L Y) as (e & J & G). apply bind_ok in G as (bs & _ & G). apply bind_ok in G as (ds & _ & G). injection G as <-.
  destruct (has_speed bs || has_speed ds); [|destruct I]. destruct I as [<-|[]]. apply C.
  exact (Permutation_in _ (get_q_perm qu) J).
Qed.
Lemma effects_as b b' tl t au tg :
  b_library b' = b_library b -> b_stats b' = b_stats b -> b_priority b' = b_priority b -> (forall x, In x tl -> calm (snd x)) ->
  rrel (fun x y => fst y = fst x /\ times_same (snd x) (snd y)) (applicable_effects b tl t au tg) (applicable_effects b' tl t au (map f tg)).
Proof.
  intros E1 E2 E3 C. unfold applicable_effects. rewrite E1, E2, E3. cbv zeta. set (evs := filter _ tl).
  apply rrel_same. intros rs _.
  apply rrel_bind with (R := fun x y : se_tracker * jr_tracker => se_rel (fst x) (fst y) /\ snd y = snd x).
  - rewrite <- (map_id evs) at 2. apply foldM_rel; [|split; [apply init_rel|reflexivity]].
    intros [se jr] [se' jr'] x J [R Y]. cbn [fst snd] in *. subst jr'.
    eapply rrel_bind; [apply add_status_rel; [|apply expire_rel, R]|].
    + apply C. apply filter_In in J as [J _]. exact J.
    + intros a c _ R1. apply rrel_same. intros jr1 _. cbn [rrel]. split; [exact R1|reflexivity].
  - intros [se jr] [se' jr'] _ [R Y]. cbn [fst snd] in *. subst jr'.
    eapply rrel_bind; [apply compile_buffs_rel, expire_rel, R|]. intros [se2 [bu c]] [se2' x] _ [R2 E]. cbn [fst snd] in *. subst x.
    eapply rrel_bind; [apply (compile_debuffs_rel _ _ t _ DEFAULT_TARGET DEFAULT_TARGET R2); right; split; reflexivity|].
    intros [se3 [de c3]] [se3' [de' c3']] _ (R3 & TS & _). split; [reflexivity|exact TS].
Qed.
Definition casts_rel (x y : trackers * ch_tracker * list (Z * ext)) : Prop :=
  tk_rel (fst (fst x)) (fst (fst y)) /\ snd (fst y) = snd (fst x) /\ snd y = snd x.
Lemma no_auto_rel b x y z :
  calm (tm_skill z) -> casts_rel x y -> rrel casts_rel (no_auto_step b x z) (no_auto_step (builder_as f b) y (timed_as f z)).
Proof.
  destruct x as [[tk ch] cs], y as [[tk' ch'] cs']. intros C (T & H & K). cbn [fst snd] in *. subst ch' cs'. unfold no_auto_step. cbv zeta.
  cbn [timed_as tm_time tm_skill tm_modifier builder_as b_stats b_default_target]. apply rrel_same. intros ch1 _.
  eapply rrel_bind; [apply compile_press_rel, T|]. intros [[[tk1 m1] bu] de] [[[tk1' m1'] bu'] de'] _ ((S & J & O) & -> & -> & _).
  apply rrel_same. intros ts _. apply rrel_same. intros cast _.
  eapply rrel_bind; [apply (add_status_rel _ _ _ _ _ [b_default_target b]); [exact C|exact S]|]. intros se se' _ S'. rewrite J.
  apply rrel_same. intros jr _. cbn [rrel]. split; [|split; reflexivity]. split; [exact S'|]. split; [reflexivity|exact O].
Qed.
Lemma periods_as b :
  ties_agree b -> (forall x, In x (b_timed b) -> calm (tm_skill x)) -> get_no_auto_periods (builder_as f b) = get_no_auto_periods b.
Proof.
  intros A C. symmetry. apply rrel_eq. unfold get_no_auto_periods. cbn [builder_as b_stats b_library b_priority b_timed].
  eapply rrel_bind; [apply new_trackers_rel|]. intros tk tk' _ T. rewrite map_length.
  rewrite (drain_agree (timed_as f) timed_lt timed_lt (b_timed b)).
  2:{ intros x y X Y. apply timed_lt_as. intros E N. exact (A x y X Y E N). }
  destruct (drain timed_lt _ (b_timed b)) as [o|] eqn:O; [|reflexivity]. cbn [rmap bind].
  eapply rrel_bind with (R := casts_rel).
  - apply foldM_rel; [|split; [exact T|split; reflexivity]]. intros a c x I R. apply no_auto_rel; [|exact R]. apply C.
    apply drain_perm in O. exact (Permutation_in _ (Permutation_sym O) I).
  - intros [[tk2 ch] cs] [[tk2' ch'] cs'] _ (_ & H & K). cbn [fst snd] in *. subst ch' cs'. apply rrel_same. intros c _.
    apply rrel_same. intros w _. reflexivity.
Qed.
Lemma windows_for_as w tg : windows_for (windows_as f w) (f tg) = windows_for w tg.
Proof. destruct w as [l|d]; [reflexivity|]. cbn [windows_as windows_for]. rewrite dget_as. reflexivity. Qed.
Lemma shorten_from_as l : forall c, shorten_from (f c) (map stamp_as l) = map stamp_as (shorten_from c l).
Proof.
  induction l as [|x l IH]; intros c; [reflexivity|]. cbn [map shorten_from stamp_as snd]. rewrite eqb_as.
  destruct (String.eqb (snd x) c); [apply IH|]. cbn [map]. f_equal. apply IH.
Qed.
Lemma shorten_as l : shorten_sequence (map stamp_as l) = rmap (map stamp_as) (shorten_sequence l).
Proof. destruct l as [|x l]; [reflexivity|]. cbn [map shorten_sequence rmap]. do 2 f_equal. apply shorten_from_as. Qed.
Lemma advance_as l : forall i t, advance (map stamp_as l) i t = advance l i t.
Proof. induction l as [|x l IH]; intros i t; [reflexivity|]. cbn [map advance stamp_as fst]. destruct (fst x <=? t); [apply IH|reflexivity]. Qed.
Lemma auto_loop_rel b stamps au delay wd last fuel :
  ties_agree b -> (forall x, In x (b_timed b) -> calm (tm_skill x)) -> calm au ->
  forall qu qu' sn i, queue_rel qu qu' ->
  rrel queue_rel (auto_loop fuel b stamps au delay wd last qu sn i) (auto_loop fuel (builder_as f b) (map stamp_as stamps) au delay wd last qu' sn i).
Proof.
  intros A C U. induction fuel as [|n IH]; intros qu qu' sn i Q; cbn [auto_loop]; cbv zeta;
    destruct (negb _); try exact Q; try reflexivity.
  assert (SK : forall k l, skipn k (map stamp_as l) = map stamp_as (skipn k l)).
  { clear. induction k as [|k IH]; intros [|x l]; try reflexivity. apply IH. }
  rewrite SK, advance_as. set (i' := Nat.pred _). rewrite nth_error_map.
  destruct (nth_error stamps i') as [[t0 tg]|]; [|reflexivity]. cbn [option_map of_option bind stamp_as fst snd].
  eapply rrel_bind; [apply (q_add_new_rel _ _ _ _ _ _ _ _ [tg] Q U)|]. intros q1 q1' _ [-> Q1]. rewrite speed_as.
  apply rrel_same. intros tl TL. change [b_default_target (builder_as f b)] with (map f [b_default_target b]).
  eapply rrel_bind; [apply (effects_as b (builder_as f b)); [reflexivity|reflexivity|reflexivity|intros x I; exact (speed_calm _ _ _ Q1 TL I)]|].
  intros [bu de] [bu' de'] _ [E [_ TS]]. cbn [fst snd] in *. subst bu'. rewrite TS. rewrite periods_as by assumption. apply rrel_same. intros ps _.
  change (b_windows (builder_as f b)) with (windows_as f (b_windows b)). rewrite windows_for_as. apply rrel_same. intros [z|] _.
  - apply IH. split; [reflexivity|exact Q1].
  - split; [reflexivity|exact Q1].
Qed.
Lemma first_as qu : get_first_damage_time (queue_as f qu) = get_first_damage_time qu.
Proof.
  unfold get_first_damage_time. cbn [queue_as q_heap]. set (a := None). clearbody a. revert a.
  induction (q_heap qu) as [|e l IH]; intros a; [reflexivity|]. cbn [map foldM].
  change (first_damage_step a (event_as f e)) with (first_damage_step a e). destruct (first_damage_step a e); [apply IH|reflexivity].
Qed.
Lemma last_as qu : get_last_event_time (queue_as f qu) = get_last_event_time qu.
Proof.
  unfold get_last_event_time. cbn [queue_as q_heap]. set (a := None). clearbody a. revert a.
  induction (q_heap qu) as [|e l IH]; intros a; [reflexivity|]. cbn [map fold_left]. apply IH.
Qed.
Lemma sort_stamps l : sort_by fst (map stamp_as l) = map stamp_as (sort_by fst l).
Proof. unfold sort_by. apply sort_lt_map. reflexivity. Qed.
Lemma add_autos_rel b stamps last qu qu' :
  ties_agree b -> (forall x, In x (b_timed b) -> calm (tm_skill x)) ->
  (forall s, auto_skill_of (b_library b) (st_job (b_stats b)) = Ok s -> calm s) -> queue_rel qu qu' ->
  rrel queue_rel (add_autos b stamps last qu) (add_autos (builder_as f b) (map stamp_as stamps) last qu').
Proof.
  intros A C U [-> Q]. unfold add_autos. cbv zeta. cbn [builder_as b_stats b_library]. rewrite sort_stamps, shorten_as, last_as, first_as.
  destruct (shorten_sequence (sort_by fst stamps)) as [sh|]; [|reflexivity]. cbn [rmap bind].
  apply rrel_same. intros au AU. apply rrel_same. intros fi _. apply rrel_same. intros fi' _. apply rrel_same. intros de _. apply rrel_same. intros la _.
  apply auto_loop_rel; [exact A|exact C|exact (U au AU)|split; [reflexivity|exact Q]].
Qed.

(** ** Shift and downtime *)
Lemma q_drain_as qu : q_drain (queue_as f qu) = rmap (map (event_as f)) (q_drain qu).
Proof. unfold q_drain. cbn [queue_as q_heap]. rewrite map_length. apply drain_map, event_lt_as. Qed.
Lemma shift_as qu pr : shift_timelines (queue_as f qu) pr = rmap (fun x => (queue_as f (fst x), snd x)) (shift_timelines qu pr).
Proof.
  unfold shift_timelines. rewrite first_as. destruct (get_first_damage_time qu) as [[d|]|]; [|reflexivity|reflexivity]. cbn [bind]. cbv zeta.
  rewrite q_drain_as. destruct (q_drain qu) as [evs|]; [|reflexivity]. cbn [rmap bind]. change q_init with (queue_as f q_init) at 1.
  rewrite (foldM_map2 (shift_event d) (shift_event d) (queue_as f) (event_as f) (fun _ => True)); [|intros; apply q_add_new_as|trivial|trivial].
  destruct (foldM (shift_event d) evs q_init); reflexivity.
Qed.
Lemma keep_as w e tg : keep_target (windows_as f w) (event_as f e) (f tg) = keep_target w e tg.
Proof.
  unfold keep_target, filtered. cbn [event_as ev_skill ev_modifier ev_primary]. rewrite windows_for_as.
  change (ev_time (event_as f e)) with (ev_time e). reflexivity.
Qed.
Lemma filterM_as w e l : filterM (keep_target (windows_as f w) (event_as f e)) (map f l) = rmap (map f) (filterM (keep_target w e) l).
Proof.
  induction l as [|x l IH]; [reflexivity|]. cbn [map filterM]. rewrite keep_as. destruct (keep_target w e x) as [k|]; [|reflexivity]. cbn [bind].
  rewrite IH. destruct (filterM (keep_target w e) l) as [r|]; [|reflexivity]. cbn [rmap bind]. destruct k; reflexivity.
Qed.
Lemma downtime_as w qu : remove_damage_during_downtime (windows_as f w) (queue_as f qu) = rmap (queue_as f) (remove_damage_during_downtime w qu).
Proof.
  unfold remove_damage_during_downtime. rewrite q_drain_as. destruct (q_drain qu) as [evs|]; [|reflexivity]. cbn [rmap bind].
  change q_init with (queue_as f q_init) at 1.
  apply (foldM_map2 (downtime_event w) (downtime_event (windows_as f w)) (queue_as f) (event_as f) (fun _ => True)); [|trivial|trivial].
  intros a e _. unfold downtime_event. change (ev_targets (event_as f e)) with (map f (ev_targets e)). rewrite filterM_as.
  destruct (filterM (keep_target w e) (ev_targets e)) as [[|v l]|]; [reflexivity| |reflexivity]. cbn [rmap bind].
  change (map f (v :: l)) with (f v :: map f l). cbv iota. apply (q_add_new_as a _ _ _ _ _ _ (v :: l)).
Qed.
Lemma drain_calm qu evs : calm_queue qu -> q_drain qu = Ok evs -> forall e, In e evs -> calm (ev_skill e).
Proof. intros C D e I. unfold q_drain in D. apply drain_perm in D. apply C, (Permutation_in _ (Permutation_sym D) I). Qed.
Lemma readd_calm (g : queue -> event -> res queue) evs qu qu' :
  (forall q e q', calm_queue q -> calm (ev_skill e) -> g q e = Ok q' -> calm_queue q') ->
  (forall e, In e evs -> calm (ev_skill e)) -> calm_queue qu -> foldM g evs qu = Ok qu' -> calm_queue qu'.
Proof.
  intros G. revert qu. induction evs as [|e evs IH]; intros qu C Q E; cbn [foldM] in E.
  - injection E as <-. exact Q.
  - apply bind_ok in E as (q1 & E1 & E). apply (IH q1); [intros x I; apply C; right; exact I| |exact E].
    exact (G _ _ _ Q (C e (or_introl eq_refl)) E1).
Qed.
Lemma shift_calm qu pr qu' pr' : calm_queue qu -> shift_timelines qu pr = Ok (qu', pr') -> calm_queue qu'.
Proof.
  intros C E. unfold shift_timelines in E. apply bind_ok in E as ([d|] & _ & E); [|injection E as <- _; exact C]. cbv zeta in E.
  apply bind_ok in E as (evs & D & E). apply bind_ok in E as (q1 & E1 & E). injection E as <- _.
  eapply readd_calm; [|exact (drain_calm _ _ C D)| |exact E1]; [|intros e []].
  intros a e a' A K H. unfold shift_event, q_add_new in H. exact (q_add_calm _ _ _ _ _ _ _ _ _ _ _ _ _ A K H).
Qed.
Lemma downtime_calm w qu qu' : calm_queue qu -> remove_damage_during_downtime w qu = Ok qu' -> calm_queue qu'.
Proof.
  intros C E. unfold remove_damage_during_downtime in E. apply bind_ok in E as (evs & D & E).
  eapply readd_calm; [|exact (drain_calm _ _ C D)| |exact E]; [|intros e []].
  intros a e a' A K H. unfold downtime_event, q_add_new in H. apply bind_ok in H as ([|v l] & _ & H); [injection H as <-; exact A|].
  exact (q_add_calm _ _ _ _ _ _ _ _ _ _ _ _ _ A K H).
Qed.
Lemma process_windows_as b : process_downtime_windows (builder_as f b) = windows_as f (process_downtime_windows b).
Proof.
  unfold process_downtime_windows. cbn [builder_as b_windows b_targets]. destruct (b_windows b) as [l|d]; [|reflexivity].
  cbn [windows_as]. unfold keys_as. rewrite !map_map. reflexivity.
Qed.

(** ** A whole run *)
Lemma run_rel b :
  ties_agree b -> (forall s, plays b s -> calm s) ->
  rrel (fun r r' => r' = builder_as f r /\ calm_queue (b_queue r)) (get_skill_timing b) (get_skill_timing (builder_as f b)).
Proof.
  intros A N. unfold get_skill_timing. cbv zeta. rewrite process_windows_as.
  assert (CT : forall x, In x (b_timed b) -> calm_press (tm_skill x)).
  { intros x I. split; [apply N, plays_timed, I|]. intros m l fu F J. exact (N _ (plays_timed_later b x m l fu I F J)). }
  assert (CS : forall x, In x (b_sequence b) -> calm_press (sq_skill x)).
  { intros x I. split; [apply N, plays_next, I|]. intros m l fu F J. exact (N _ (plays_next_later b x m l fu I F J)). }
  assert (CD : calm_dots (b_dots b)).
  { intros k l fu es I J. exact (N _ (plays_dot b k l fu es I J)). }
  assert (CA : forall s, auto_skill_of (b_library b) (st_job (b_stats b)) = Ok s -> calm s).
  { intros s E. exact (N _ (plays_auto b s E)). }
  set (w := process_downtime_windows b). set (b1 := with_windows b w).
  change (with_windows (builder_as f b) (windows_as f w)) with (builder_as f b1).
  assert (A1 : ties_agree b1) by exact A.
  apply rrel_bind with (R := pass_rel).
  { unfold process_q_sequence. eapply rrel_bind; [apply new_trackers_rel|]. intros tk tk' _ T.
    eapply rrel_bind with (R := seq_rel).
    - apply foldM_rel; [|split; [|split; reflexivity]].
      + intros a c x I R. apply process_seq_rel; [apply CS, I|exact R].
      + split; [|split; reflexivity]. split; [split; [reflexivity|intros e []]|]. split; [split; [reflexivity|exact CD]|exact T].
    - intros a c _ [R _]. exact R. }
  intros p1 p1' _ ((Q1 & D1 & T1) & P1 & S1). cbn [bind].
  apply rrel_bind with (R := pass_rel).
  { unfold process_q_timed. eapply rrel_bind; [apply new_trackers_rel|]. intros tk tk' _ T. unfold timed_order.
    change (b_timed (builder_as f b1)) with (map (timed_as f) (b_timed b1)). rewrite map_length.
    assert (SB : sort_by tm_time (map (timed_as f) (b_timed b1)) = map (timed_as f) (sort_by tm_time (b_timed b1)))
      by (unfold sort_by; apply sort_lt_map; reflexivity).
    rewrite SB, (drain_agree (timed_as f) timed_lt timed_lt).
    - destruct (drain timed_lt _ (sort_by tm_time (b_timed b1))) as [o|] eqn:O; [|reflexivity]. cbn [rmap bind]. apply foldM_rel.
      + intros a c x I R. apply timed_rel; [|exact R]. apply CT. apply drain_perm in O. apply (Permutation_in _ (Permutation_sym O)) in I.
        apply (Permutation_in _ (sort_by_perm _ _)) in I. exact I.
      + split; [|split; [exact P1|exact S1]]. split; [exact Q1|]. split; [exact D1|exact T].
    - intros x y X Y. apply timed_lt_as. apply (Permutation_in _ (sort_by_perm _ _)) in X, Y. exact (A1 x y X Y). }
  intros p2 p2' _ (((EQ2 & Q2) & (ED2 & D2) & T2) & P2 & S2). rewrite EQ2, ED2, P2, S2, last_as.
  cbn [builder_as b_snap_dots b_autos b_ignore_trailing b_fight_start b_windows].
  set (last := if b_ignore_trailing b1 then _ else _).
  eapply rrel_bind; [apply all_dots_rel; [exact D2|split; [reflexivity|exact Q2]]|]. intros q3 q3' _ Q3.
  apply rrel_bind with (R := queue_rel).
  { destruct (b_autos b1); [|exact Q3]. apply add_autos_rel; [exact A1| |exact CA|exact Q3]. intros x I. apply calm_pressed, CT, I. }
  intros q4 q4' _ [-> Q4].
  apply rrel_bind with (R := fun x y => fst y = queue_as f (fst x) /\ snd y = snd x /\ calm_queue (fst x)).
  { destruct (b_fight_start b1); [split; [reflexivity|split; [reflexivity|exact Q4]]|]. rewrite shift_as.
    destruct (shift_timelines q4 (pa_press p2)) as [[q5 pr]|] eqn:E; [|reflexivity].
    split; [reflexivity|]. split; [reflexivity|]. exact (shift_calm _ _ _ _ Q4 E). }
  intros [q5 pr] [q5' pr'] _ (E5 & E6 & Q5). cbn [fst snd] in *. subst q5' pr'. rewrite downtime_as.
  destruct (remove_damage_during_downtime (b_windows b1) q5) as [q6|] eqn:E; [|reflexivity]. cbn [rmap bind rrel].
  split; [reflexivity|]. exact (downtime_calm _ _ _ Q5 E).
Qed.
Lemma run_as b :
  ties_agree b -> (forall s, plays b s -> calm s) -> get_skill_timing (builder_as f b) = rmap (builder_as f) (get_skill_timing b).
Proof.
  intros A N. apply rrel_rmap. pose proof (run_rel b A N) as R. destruct (get_skill_timing b), (get_skill_timing (builder_as f b)); try exact R.
  exact (proj1 R).
Qed.

(** ** Building *)
Lemma init_as st lib snap au ig fs w tg :
  rb_init st lib snap au ig fs (raw_windows_as f w) (f tg) = rmap (builder_as f) (rb_init st lib snap au ig fs w tg).
Proof.
  unfold rb_init. destruct (get_status_effect_priority lib (st_job st)) as [p|]; [|reflexivity]. cbn [bind rmap].
  unfold builder_as. cbn. do 2 f_equal. destruct w as [l|d]; [reflexivity|]. cbn. unfold keys_as. rewrite !map_map. reflexivity.
Qed.
Lemma sadd_as l : forall acc, fold_left (fun acc x => sadd x acc) (map f l) (map f acc) = map f (fold_left (fun acc x => sadd x acc) l acc).
Proof.
  induction l as [|x l IH]; intros acc; [reflexivity|]. cbn [map fold_left]. rewrite <- IH. f_equal. unfold sadd. rewrite smem_as.
  destruct (smem x acc); [reflexivity|]. rewrite map_app. reflexivity.
Qed.
Lemma add_as b t nm m jb tg tg' :
  asked_for (f (b_default_target b)) tg' = map f (asked_for (b_default_target b) tg) -> add (builder_as f b) t nm m jb tg' = rmap (builder_as f) (add b t nm m jb tg).
Proof.
  intros E. unfold add, process_targets. cbn [builder_as b_default_target b_targets].
  fold (asked_for (b_default_target b) tg). fold (asked_for (f (b_default_target b)) tg'). rewrite E. rewrite sadd_as. change (job_or_default (builder_as f b) jb) with (job_or_default b jb).
  change (b_library (builder_as f b)) with (b_library b). cbn [b_library].
  destruct (get_skill (b_library b) nm (job_or_default b jb)) as [s|]; [|reflexivity]. cbn [bind rmap]. unfold builder_as. cbn. rewrite map_app.
  reflexivity.
Qed.
Lemma map_repeat_as {A B} (g : A -> B) x n : map g (repeat x n) = repeat (g x) n.
Proof. induction n as [|n IH]; [reflexivity|]. cbn. rewrite IH. reflexivity. Qed.
Lemma add_next_as b nm m jb n tg tg' :
  asked_for (f (b_default_target b)) tg' = map f (asked_for (b_default_target b) tg) -> add_next (builder_as f b) nm m jb n tg' = rmap (builder_as f) (add_next b nm m jb n tg).
Proof.
  intros E. unfold add_next, process_targets. cbn [builder_as b_default_target b_targets].
  fold (asked_for (b_default_target b) tg). fold (asked_for (f (b_default_target b)) tg'). rewrite E. rewrite sadd_as. change (job_or_default (builder_as f b) jb) with (job_or_default b jb).
  change (b_library (builder_as f b)) with (b_library b). cbn [b_library].
  destruct (get_skill (b_library b) nm (job_or_default b jb)) as [s|]; [|reflexivity]. cbn [bind rmap]. unfold builder_as. cbn. rewrite map_app, map_repeat_as.
  reflexivity.
Qed.
Lemma default_kept b i b' : carry_out b i = Ok b' -> b_default_target b' = b_default_target b.
Proof.
  destruct i as [c n|t c]; cbn [carry_out].
  - unfold add_next. destruct (process_targets b (c_targets c)) as [tg all]. intros E. apply bind_ok in E as (s & _ & E). injection E as <-. reflexivity.
  - unfold add. destruct (process_targets b (c_targets c)) as [tg all]. intros E. apply bind_ok in E as (s & _ & E). injection E as <-. reflexivity.
Qed.
Lemma follow_as l l' b : Forall2 (instr_as f (b_default_target b)) l l' -> follow (builder_as f b) l' = rmap (builder_as f) (follow b l).
Proof.
  intros F. unfold follow. remember (b_default_target b) as d eqn:D. revert b D. induction F as [|i i' l l' I F IH]; intros b D; [reflexivity|].
  cbn [foldM].
  assert (E : carry_out (builder_as f b) i' = rmap (builder_as f) (carry_out b i)).
  { subst d. destruct i as [c n|t c], i' as [c' n'|t' c']; cbn [instr_as] in I; try destruct I as [-> (N & M & J & T)]; try destruct I;
      cbn [carry_out]; rewrite N, M, J; [apply add_next_as|apply add_as]; exact T. }
  rewrite E. destruct (carry_out b i) as [b1|e] eqn:C; cbn [rmap bind]; [|reflexivity]. apply IH. rewrite (default_kept _ _ _ C). exact D.
Qed.
Lemma calls_as st lib snap au ig fs w tg l l' :
  Forall2 (instr_as f tg) l l' ->
  (let* b := rb_init st lib snap au ig fs (raw_windows_as f w) (f tg) in follow b l')
  = rmap (builder_as f) (let* b := rb_init st lib snap au ig fs w tg in follow b l).
Proof.
  intros F. rewrite init_as. destruct (rb_init st lib snap au ig fs w tg) as [b|] eqn:B; [|reflexivity]. cbn [rmap bind]. apply follow_as.
  unfold rb_init in B. apply bind_ok in B as (p & _ & B). injection B as <-. exact F.
Qed.
End Names.
(** The names of the debuffs of a rotation. *)
Definition debuff_of (b : builder) (n : string) : Prop := exists s m sp, plays b s /\ get_debuff_spec s m = Ok (Some sp) /\ n = sk_name s.
Lemma plays_calm f b : home f \/ debuffs_apart b -> forall s, plays b s -> calm f (debuff_of b) s.
Proof.
  intros [H|H] s P; [left; exact H|right]. split.
  - intros m sp E. split; [exact (proj1 (H s m sp P E))|exists s, m, sp; auto].
  - intros m sp n E I (s' & m' & sp' & P' & E' & ->). exact (proj2 (H s' m' sp' P' E') s m sp P E I).
Qed.
Lemma exchange_apart a b : keeps_apart (exchange a b).
Proof.
  intros x y. unfold exchange.
  destruct (String.eqb_spec x a), (String.eqb_spec x b), (String.eqb_spec y a), (String.eqb_spec y b); congruence.
Qed.
