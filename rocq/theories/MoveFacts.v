(** * Everything in a run moves with its presses *)

From Coq Require Import ZArith QArith Qround List String Bool Lia.
From Verif Require Import Base BaseFacts Float Heap Strings Types Lookup Stats Library StatusEffect JobResource Combo Channeling
  Events Rotation DamageBuild Relabel SpecMove.
Import ListNotations.
Open Scope string_scope.
Open Scope Z_scope.

(** ** Lists, heaps, sorting *)

Lemma foldM_map2 {A B C D} (f : A -> B -> res A) (g : C -> D -> res C) (h : A -> C) (k : B -> D) (I : A -> Prop) :
  (forall a b, I a -> g (h a) (k b) = rmap h (f a b)) -> (forall a b a', I a -> f a b = Ok a' -> I a') ->
  forall l a, I a -> foldM g (map k l) (h a) = rmap h (foldM f l a).
Proof.
  intros H J. induction l as [|x l IH]; intros a Ia; [reflexivity|]. cbn [foldM map]. rewrite H by exact Ia.
  destruct (f a x) as [a'|e] eqn:E; cbn [rmap bind]; [apply IH, (J _ _ _ Ia E)|reflexivity].
Qed.
Lemma foldM_keeps {A B} (f : A -> B -> res A) (I : A -> Prop) :
  (forall a b a', I a -> f a b = Ok a' -> I a') -> forall l a a', I a -> foldM f l a = Ok a' -> I a'.
Proof.
  intros H. induction l as [|x l IH]; intros a a' Ia E; cbn [foldM] in E; [injection E as <-; exact Ia|].
  apply bind_ok in E as (a1 & E1 & E). apply (IH a1); [apply (H _ _ _ Ia E1)|exact E].
Qed.
Lemma fold_left_map2 {A B C D} (f : A -> B -> A) (g : C -> D -> C) (h : A -> C) (k : B -> D) :
  (forall a b, g (h a) (k b) = h (f a b)) -> forall l a, fold_left g (map k l) (h a) = h (fold_left f l a).
Proof. intros H. induction l as [|x l IH]; intros a; [reflexivity|]. cbn [fold_left map]. rewrite H. apply IH. Qed.

Section Equivariant.
  Context {A B : Type} (f : A -> B).
  Lemma insert_lt_map (la : A -> A -> bool) (lb : B -> B -> bool) :
    (forall x y, lb (f x) (f y) = la x y) -> forall x l, insert_lt lb (f x) (map f l) = map f (insert_lt la x l).
  Proof.
    intros H x. induction l as [|y l IH]; [reflexivity|]. cbn [insert_lt map]. rewrite H. destruct (la x y); [reflexivity|].
    cbn [map]. rewrite IH. reflexivity.
  Qed.
  Lemma sort_lt_map (la : A -> A -> bool) (lb : B -> B -> bool) :
    (forall x y, lb (f x) (f y) = la x y) -> forall l, sort_lt lb (map f l) = map f (sort_lt la l).
  Proof.
    intros H l. unfold sort_lt. change (@nil B) with (map f []). apply fold_left_map2. intros a b. apply insert_lt_map, H.
  Qed.
  Variables (la : A -> A -> res bool) (lb : B -> B -> res bool).
  Hypothesis H : forall x y, lb (f x) (f y) = la x y.
  Lemma upd_map l i x : upd (map f l) i (f x) = map f (upd l i x).
  Proof. revert i; induction l as [|y l IH]; intros [|i]; cbn [upd map]; try reflexivity. rewrite IH. reflexivity. Qed.
  Lemma siftdown_map n : forall h p, siftdown lb n (map f h) p = rmap (map f) (siftdown la n h p).
  Proof.
    induction n as [|n IH]; intros h [|p]; cbn [siftdown]; try reflexivity. rewrite !nth_error_map.
    destruct (nth_error h (S p)) as [x|]; [|reflexivity]. destruct (nth_error h (Nat.div2 p)) as [y|]; [|reflexivity].
    cbn [option_map]. rewrite H. destruct (la x y) as [[|]|e]; cbn [bind rmap]; try reflexivity. rewrite !upd_map. apply IH.
  Qed.
  Lemma siftup_leaf_map n : forall h p,
    siftup_leaf lb n (map f h) p = rmap (fun x => (map f (fst x), snd x)) (siftup_leaf la n h p).
  Proof.
    induction n as [|n IH]; intros h p; cbn [siftup_leaf]; [reflexivity|]. cbv zeta. rewrite !nth_error_map.
    destruct (nth_error h p) as [x|]; cbn [option_map]; [|reflexivity].
    destruct (nth_error h (2 * p + 1)) as [y|]; cbn [option_map]; [|reflexivity].
    destruct (nth_error h (2 * p + 2)) as [z|]; cbn [option_map].
    - rewrite H. destruct (la y z) as [[|]|e]; cbn [bind rmap]; try reflexivity; rewrite !upd_map; apply IH.
    - rewrite !upd_map. apply IH.
  Qed.
  Lemma heappush_map h x : heappush lb (map f h) (f x) = rmap (map f) (heappush la h x).
  Proof. unfold heappush. rewrite map_length. change [f x] with (map f [x]). rewrite <- map_app. apply siftdown_map. Qed.
  Lemma last_map l x : last (map f l) (f x) = f (last l x).
  Proof. induction l as [|y l IH]; [reflexivity|]. cbn [map last]. destruct l; [reflexivity|exact IH]. Qed.
  Lemma removelast_map l : removelast (map f l) = map f (removelast l).
  Proof. induction l as [|y l IH]; [reflexivity|]. cbn [map removelast]. destruct l; [reflexivity|]. cbn [map] in *. rewrite IH. reflexivity. Qed.
  Lemma heappop_map h : heappop lb (map f h) = rmap (fun x => (f (fst x), map f (snd x))) (heappop la h).
  Proof.
    unfold heappop. destruct h as [|x h]; [reflexivity|]. cbn [map]. cbv zeta.
    change (f x :: map f h) with (map f (x :: h)). rewrite last_map, removelast_map. set (y := last (x :: h) x).
    destruct (removelast (x :: h)) as [|z r]; [reflexivity|]. cbn [map].
    change (f y :: map f r) with (map f (y :: r)). rewrite map_length, siftup_leaf_map.
    destruct (siftup_leaf la _ (y :: r) 0) as [[h2 p]|e]; [|reflexivity]. cbn [rmap bind fst snd].
    rewrite siftdown_map. destruct (siftdown la _ h2 p); reflexivity.
  Qed.
  Lemma drain_map n : forall h, drain lb n (map f h) = rmap (map f) (drain la n h).
  Proof.
    induction n as [|n IH]; intros [|x h]; try reflexivity. cbn [drain map].
    change (f x :: map f h) with (map f (x :: h)). rewrite heappop_map.
    destruct (heappop la (x :: h)) as [[y h']|e]; [|reflexivity]. cbn [rmap bind fst snd]. rewrite IH.
    destruct (drain la n h'); reflexivity.
  Qed.
End Equivariant.

(** ** Dicts *)

Definition dmap {V W} (f : V -> W) (d : dict V) : dict W := map (fun kv => (fst kv, f (snd kv))) d.
Lemma dget_dmap {V W} (f : V -> W) k d : dget k (dmap f d) = option_map f (dget k d).
Proof. induction d as [|[k' v] d IH]; [reflexivity|]. cbn [dmap map dget fst snd]. destruct (String.eqb k k'); [reflexivity|exact IH]. Qed.
Lemma dset_dmap {V W} (f : V -> W) k v d : dset k (f v) (dmap f d) = dmap f (dset k v d).
Proof.
  induction d as [|[k' w] d IH]; [reflexivity|]. cbn [dmap map dset fst snd]. destruct (String.eqb k k'); [reflexivity|].
  cbn [map fst snd]. f_equal. exact IH.
Qed.
Definition zmap {V W} (f : V -> W) (d : zdict V) : zdict W := map (fun kv => (fst kv, f (snd kv))) d.
Lemma zget_zmap {V W} (f : V -> W) k d : zget k (zmap f d) = option_map f (zget k d).
Proof. induction d as [|[k' v] d IH]; [reflexivity|]. cbn [zmap map zget fst snd]. destruct (k =? k'); [reflexivity|exact IH]. Qed.
Lemma zset_zmap {V W} (f : V -> W) k v d : zset k (f v) (zmap f d) = zmap f (zset k v d).
Proof.
  induction d as [|[k' w] d IH]; [reflexivity|]. cbn [zmap map zset fst snd]. destruct (k =? k'); [reflexivity|].
  cbn [map fst snd]. f_equal. exact IH.
Qed.
Lemma filter_map2 {A B} (f : A -> B) (p : B -> bool) (r : A -> bool) l :
  (forall x, p (f x) = r x) -> filter p (map f l) = map f (filter r l).
Proof. intros H. induction l as [|x l IH]; [reflexivity|]. cbn [map filter]. rewrite H. destruct (r x); cbn [map]; rewrite IH; reflexivity. Qed.

Section Move.
Variable d : Z.

(** ** Extended integers *)
Definition ext_later (e : ext) : ext := match e with Fin z => Fin (z + d) | Inf => Inf end.
Lemma gt_later t e : z_gt_ext (t + d) (ext_later e) = z_gt_ext t e.
Proof. destruct e as [z|]; [|reflexivity]. cbn. destruct (Z.ltb_spec (z + d) (t + d)), (Z.ltb_spec z t); reflexivity || lia. Qed.
Lemma add_later t e : ext_add (Fin (t + d)) e = ext_later (ext_add (Fin t) e).
Proof. destruct e as [z|]; [|reflexivity]. cbn. f_equal. lia. Qed.
Lemma sub_later e t : ext_subz (ext_later e) (t + d) = ext_subz e t.
Proof. destruct e as [z|]; [|reflexivity]. cbn. f_equal. lia. Qed.
Lemma ltb_later a b : (a + d <? b + d) = (a <? b).
Proof. destruct (Z.ltb_spec (a + d) (b + d)), (Z.ltb_spec a b); reflexivity || lia. Qed.
Lemma leb_later a b : (a + d <=? b + d) = (a <=? b).
Proof. destruct (Z.leb_spec (a + d) (b + d)), (Z.leb_spec a b); reflexivity || lia. Qed.
Lemma eqb_later a b : (a + d =? b + d) = (a =? b).
Proof. destruct (Z.eqb_spec (a + d) (b + d)), (Z.eqb_spec a b); reflexivity || lia. Qed.
Lemma prio_later t : time_to_prio (t + d) = time_to_prio t + 1000 * d.
Proof. unfold time_to_prio. lia. Qed.
Lemma sort_by_map {A B} (f : A -> B) (k : A -> Z) (k' : B -> Z) l :
  (forall x, k' (f x) = k x + d) -> sort_by k' (map f l) = map f (sort_by k l).
Proof. intros H. unfold sort_by. apply sort_lt_map. intros x y. rewrite !H. apply ltb_later. Qed.

(** ** Status effects *)
Definition active_later (a : active) : active := mkActive (ac_start a + d) (ext_later (ac_end a)) (ac_uses a) (ac_spec a).
Definition se_later (st : se_tracker) : se_tracker :=
  mkSe (dmap active_later (se_buffs st)) (dmap (dmap active_later) (se_debuffs st)) (se_priority st).

Lemma expire_effects_later t x : expire_effects (t + d) (dmap active_later x) = dmap active_later (expire_effects t x).
Proof.
  unfold expire_effects, dmap. apply filter_map2. intros [k a]. unfold expired_at. cbn [snd active_later ac_end ac_uses].
  rewrite gt_later. reflexivity.
Qed.
Lemma expire_later t st : expire_status_effects (t + d) (se_later st) = se_later (expire_status_effects t st).
Proof.
  unfold expire_status_effects, se_later. cbn [se_buffs se_debuffs se_priority]. rewrite expire_effects_later. f_equal.
  unfold dmap at 1 3. rewrite !map_map. apply map_ext. intros [k x]. cbn [fst snd]. rewrite expire_effects_later. reflexivity.
Qed.
Lemma get_debuffs_later st target : get_debuffs (se_later st) target = dmap active_later (get_debuffs st target).
Proof. unfold get_debuffs, se_later. cbn [se_debuffs]. rewrite dget_dmap. destruct (dget target _); reflexivity. Qed.
Lemma set_debuffs_later st target x : set_debuffs (se_later st) target (dmap active_later x) = se_later (set_debuffs st target x).
Proof. unfold set_debuffs, se_later. cbn [se_buffs se_debuffs se_priority]. rewrite dset_dmap. reflexivity. Qed.
Lemma set_buffs_later st x : set_buffs (se_later st) (dmap active_later x) = se_later (set_buffs st x).
Proof. reflexivity. Qed.
Lemma add_effect_later x t n sp : add_effect (dmap active_later x) (t + d) n sp = dmap active_later (add_effect x t n sp).
Proof.
  unfold add_effect. rewrite dget_dmap. destruct (dget n x) as [a|]; cbn [option_map].
  - cbv zeta. cbn [active_later ac_start ac_end ac_uses]. rewrite sub_later, add_later.
    rewrite <- dset_dmap. reflexivity.
  - destruct (extend_only sp); [reflexivity|]. rewrite add_later, <- dset_dmap. reflexivity.
Qed.
Lemma end_effect_later x n t : end_effect (dmap active_later x) n (t + d) = dmap active_later (end_effect x n t).
Proof. unfold end_effect. rewrite dget_dmap. destruct (dget n x) as [a|]; cbn [option_map]; [|reflexivity]. rewrite <- dset_dmap. reflexivity. Qed.
Lemma expire_named_later st n t target :
  expire_named_effect (se_later st) n (t + d) target = se_later (expire_named_effect st n t target).
Proof.
  unfold expire_named_effect. cbv zeta. change (se_buffs (se_later st)) with (dmap active_later (se_buffs st)).
  rewrite end_effect_later, set_buffs_later. set (st1 := set_buffs st _). rewrite get_debuffs_later, dget_dmap.
  destruct (dget n (get_debuffs st1 target)); cbn [option_map]; [|reflexivity].
  rewrite end_effect_later. apply set_debuffs_later.
Qed.
Lemma apply_buff_later st t n sp : apply_buff (se_later st) (t + d) n sp = se_later (apply_buff st t n sp).
Proof.
  unfold apply_buff. cbv zeta. rewrite <- (map_id (expires_status_effects sp)) at 1.
  replace (set_buffs (se_later st) _) with
    (se_later (set_buffs st (add_effect (if clear_all_status_effects sp then [] else se_buffs st) t n sp))).
  - apply fold_left_map2. intros s k. apply expire_named_later.
  - rewrite <- set_buffs_later, <- add_effect_later. destruct (clear_all_status_effects sp); reflexivity.
Qed.
Lemma apply_debuff_later t n sp st target : apply_debuff (t + d) n sp (se_later st) target = se_later (apply_debuff t n sp st target).
Proof.
  unfold apply_debuff. rewrite <- (map_id (expires_status_effects sp)) at 1.
  rewrite get_debuffs_later, add_effect_later, set_debuffs_later. apply fold_left_map2. intros s k. apply expire_named_later.
Qed.
Lemma add_status_later st t s m tg : add_to_status_effects (se_later st) (t + d) s m tg = rmap se_later (add_to_status_effects st t s m tg).
Proof.
  unfold add_to_status_effects. destruct (get_buff_spec s m) as [bu|]; [|reflexivity]. cbn [bind].
  destruct (get_debuff_spec s m) as [de|]; [|reflexivity]. cbn [bind rmap]. cbv zeta. f_equal.
  assert (E : match bu with Some sp => apply_buff (se_later st) (t + d) (sk_name s) sp | None => se_later st end
            = se_later (match bu with Some sp => apply_buff st t (sk_name s) sp | None => st end)).
  { destruct bu; [apply apply_buff_later|reflexivity]. }
  rewrite E. destruct de as [sp|]; [|reflexivity]. rewrite <- (map_id tg) at 1. apply fold_left_map2.
  intros a b. apply apply_debuff_later.
Qed.
Lemma valid_later t x deny n : valid_status_effects (t + d) (dmap active_later x) deny n = valid_status_effects t x deny n.
Proof.
  unfold valid_status_effects, dmap. rewrite (filter_map2 _ _ (valid_effect t deny n)).
  - rewrite map_map. apply map_ext. intros [k a]. reflexivity.
  - intros [k a]. unfold valid_effect. cbn [fst snd active_later ac_start ac_spec]. rewrite ltb_later. reflexivity.
Qed.
Definition on_use (s : dict active * status_effects * list string) : dict active * status_effects * list string :=
  (dmap active_later (fst (fst s)), snd (fst s), snd s).
Lemma compile_effects_later prio t x deny n :
  compile_effects prio (t + d) (dmap active_later x) deny n
  = rmap (fun r => (dmap active_later (fst r), snd r)) (compile_effects prio t x deny n).
Proof.
  unfold compile_effects. cbv zeta. rewrite valid_later. set (names := delete_lower_priority _ _).
  assert (E : foldM use_effect names (on_use (x, no_effects, [])) = rmap on_use (foldM use_effect names (x, no_effects, []))).
  { apply (foldM_map use_effect use_effect on_use). intros [[y e] c] k. unfold use_effect, on_use at 1. cbn [fst snd]. rewrite dget_dmap.
    destruct (dget k y) as [a|]; [|reflexivity]. cbn [option_map of_option bind]. cbn [active_later ac_start ac_end ac_uses ac_spec].
    destruct (merge_effect e (ac_spec a)); [|reflexivity]. cbn [bind rmap]. unfold on_use. cbn [fst snd]. rewrite <- dset_dmap. reflexivity. }
  unfold on_use at 1 in E. cbn [fst snd] in E. rewrite E. clear E. destruct (foldM use_effect names (x, no_effects, [])) as [[[y e] c]|]; reflexivity.
Qed.
Definition on_se (r : se_tracker * (status_effects * string)) := (se_later (fst r), snd r).
Lemma compile_buffs_later st t s : compile_buffs (se_later st) (t + d) s = rmap on_se (compile_buffs st t s).
Proof.
  unfold compile_buffs. cbn [se_later se_priority se_buffs]. rewrite compile_effects_later.
  destruct (compile_effects _ _ _ _ _) as [[x r]|]; reflexivity.
Qed.
Lemma compile_debuffs_later st t s tg : compile_debuffs (se_later st) (t + d) s tg = rmap on_se (compile_debuffs st t s tg).
Proof.
  unfold compile_debuffs. change (se_priority (se_later st)) with (se_priority st). rewrite get_debuffs_later, compile_effects_later.
  destruct (compile_effects _ _ _ _ _) as [[x r]|]; [|reflexivity]. cbn [rmap bind fst snd on_se]. rewrite set_debuffs_later. reflexivity.
Qed.

(** ** Job resources *)
Definition jr_entry_later (e : jr_entry) : jr_entry := mkJrEntry (je_start e + d) (ext_later (je_end e)) (je_spec e).
Definition jr_later (tr : jr_tracker) : jr_tracker := dmap (fun x => (fst x, map jr_entry_later (snd x))) tr.
(** Nothing in the tracker runs out by itself. *)
Definition lasting (tr : jr_tracker) : Prop := Forall (fun kv => jrs_expiry (fst (snd kv)) = Inf) tr.

Lemma lasting_dset k cfg l0 l tr : dget k tr = Some (cfg, l0) -> lasting tr -> lasting (dset k (cfg, l) tr).
Proof.
  intros G L. induction tr as [|[k' v] tr IH]; [discriminate|]. inversion L as [|? ? L1 L2]; subst. cbn [dget dset] in *.
  destruct (String.eqb k k'); [injection G as ->; constructor; assumption|]. constructor; [exact L1|]. apply IH; assumption.
Qed.
Lemma add_one_lasting t tr sp tr' : lasting tr -> add_one_resource t tr sp = Ok tr' -> lasting tr'.
Proof.
  intros L. unfold add_one_resource. destruct (jr_clear_all sp).
  - intros E. injection E as <-. unfold clear_resources, lasting in *. rewrite Forall_map. eapply Forall_impl; [|exact L]. intros [k [c l]] X. exact X.
  - intros E. destruct (dget (jr_name sp) tr) as [[c l]|] eqn:G; [|discriminate]. cbn [of_option bind] in E. injection E as <-.
    eapply lasting_dset; [exact G|exact L].
Qed.
Lemma add_resource_lasting tr t s m tr' : lasting tr -> add_resource tr t s m = Ok tr' -> lasting tr'.
Proof.
  intros L E. unfold add_resource in E. apply bind_ok in E as (sp & _ & E). eapply foldM_keeps; [|exact L|exact E].
  intros a b a' La Ea. eapply add_one_lasting; eassumption.
Qed.
Lemma compile_resources_lasting tr t n : lasting tr -> lasting (fst (compile_job_resources tr t n)).
Proof.
  intros L. unfold compile_job_resources, lasting in *. cbn [fst]. rewrite Forall_map. eapply Forall_impl; [|exact L].
  intros [k [c l]] X. destruct (smem n (jrs_allowlist c)); exact X.
Qed.
Lemma init_lasting rs : (forall n c, In (n, c) rs -> jrs_expiry c = Inf) -> lasting (jr_init rs).
Proof. intros H. unfold lasting, jr_init. apply Forall_map, Forall_forall. intros [n c] I. exact (H n c I). Qed.

Lemma add_one_later t tr sp : add_one_resource (t + d) (jr_later tr) sp = rmap jr_later (add_one_resource t tr sp).
Proof.
  unfold add_one_resource. destruct (jr_clear_all sp).
  - cbn [rmap]. f_equal. unfold clear_resources, jr_later, dmap. rewrite !map_map. apply map_ext. intros [k [c l]].
    cbn [fst snd]. rewrite map_app. reflexivity.
  - unfold jr_later at 1. rewrite dget_dmap. destruct (dget (jr_name sp) tr) as [[c l]|]; [|reflexivity].
    cbn [option_map of_option bind fst snd rmap]. f_equal. unfold jr_later. rewrite <- dset_dmap. cbn [fst snd].
    rewrite map_app, add_later. reflexivity.
Qed.
Lemma add_resource_later tr t s m : add_resource (jr_later tr) (t + d) s m = rmap jr_later (add_resource tr t s m).
Proof.
  unfold add_resource. destruct (get_job_resource_spec s m) as [sp|]; [|reflexivity]. cbn [bind].
  apply foldM_map. intros a b. apply add_one_later.
Qed.
Definition on_total (s : Z * option Z) : Z * option Z := (fst s, option_map (fun z => z + d) (snd s)).
Lemma resource_total_later cfg t l :
  jrs_expiry cfg = Inf -> resource_total cfg (t + d) (map jr_entry_later l) = resource_total cfg t l.
Proof.
  intros X. unfold resource_total.
  assert (E : fold_left (resource_step cfg (t + d)) (map jr_entry_later l) (on_total (0, None))
            = on_total (fold_left (resource_step cfg t) l (0, None))).
  { apply (fold_left_map2 (resource_step cfg t)). intros [tot la] e. unfold resource_step, on_total. cbn [fst snd jr_entry_later je_start je_end je_spec]. rewrite X.
    rewrite ltb_later, gt_later. destruct la as [r|]; cbn [option_map ext_add z_gt_ext];
      destruct ((t <? je_start e) || z_gt_ext t (je_end e)), (jr_refreshes (je_spec e)); reflexivity. }
  unfold on_total at 1 in E. cbn [fst snd option_map] in E. rewrite E. clear E. destruct (fold_left (resource_step cfg t) l (0, None)) as [tot [r|]]; [|reflexivity].
  unfold on_total. cbn [fst snd option_map]. rewrite X. cbn [ext_add z_gt_ext]. rewrite !andb_false_r. reflexivity.
Qed.
Lemma compile_resources_later tr t n :
  lasting tr -> compile_job_resources (jr_later tr) (t + d) n
  = (jr_later (fst (compile_job_resources tr t n)), snd (compile_job_resources tr t n)).
Proof.
  intros L. unfold compile_job_resources. cbv zeta. cbn [fst snd]. apply f_equal2.
  - unfold jr_later, dmap. rewrite !map_map. apply map_ext. intros [k [c l]]. cbn [fst snd].
    destruct (smem n (jrs_allowlist c)); [|reflexivity]. rewrite (sort_by_map _ je_start) by reflexivity. reflexivity.
  - f_equal. unfold lasting in L. induction L as [|[k [c l]] tr X L IH]; [reflexivity|]. cbn [fst snd] in X.
    cbn [jr_later dmap map flat_map fst snd].
    change (map _ (map _ tr)) with (map (fun kv : string * (jr_settings * list jr_entry) => let '(name, (cfg, l0)) := kv in
        if smem n (jrs_allowlist cfg) then (name, (cfg, sort_by je_start l0)) else kv) (jr_later tr)).
    rewrite IH. f_equal. destruct (smem n (jrs_allowlist c)) eqn:S; cbn; rewrite S; [|reflexivity].
    rewrite (sort_by_map _ je_start) by reflexivity. rewrite resource_total_later by exact X. reflexivity.
Qed.

(** ** Combos *)
Definition last_later (x : option (Z * string)) : option (Z * string) := option_map (fun y => (fst y + d, snd y)) x.
Definition ct_later (ct : combo_tracker) : combo_tracker := mkComboTracker (zmap last_later (ct_last ct)) (ct_breakers ct).
Lemma succeeded_later ct t c m : combo_succeeded (ct_later ct) (t + d) c m = combo_succeeded ct t c m.
Proof.
  unfold combo_succeeded. cbn [ct_later ct_last]. rewrite zget_zmap. f_equal.
  destruct (zget _ (ct_last ct)) as [[[t0 n]|]|]; [|reflexivity|reflexivity]. cbn [option_map last_later fst snd].
  replace (t0 + d + COMBO_EXPIRATION_TIME) with (t0 + COMBO_EXPIRATION_TIME + d) by lia. rewrite leb_later. reflexivity.
Qed.
Lemma update_combo_later ct t c b n : update_combo (ct_later ct) (t + d) c b n = ct_later (update_combo ct t c b n).
Proof.
  unfold update_combo, ct_later. cbn [ct_last ct_breakers]. f_equal.
  replace (if b then Some (t + d, n) else None) with (last_later (if b then Some (t, n) else None)) by (destruct b; reflexivity).
  rewrite zset_zmap. rewrite <- (map_id (ct_breakers ct)) at 1.
  apply fold_left_map2. intros l gb. destruct (existsb _ _); [|reflexivity].
  change (@None (Z * string)) with (last_later None) at 1. apply zset_zmap.
Qed.
Definition on_combo (r : combo_tracker * bool) : combo_tracker * bool := (ct_later (fst r), snd r).
Lemma compile_combo_later ct t s m :
  compile_and_update_combo (ct_later ct) (t + d) s m = rmap (fun r => (ct_later (fst r), snd r)) (compile_and_update_combo ct t s m).
Proof.
  unfold compile_and_update_combo. destruct (get_combo_spec s m) as [sp|]; [|reflexivity]. cbn [bind].
  assert (E : fold_left (combo_step (t + d) (sk_name s) m) (map (fun x => x) sp) (on_combo (ct, true))
            = on_combo (fold_left (combo_step t (sk_name s) m) sp (ct, true))).
  { apply (fold_left_map2 (combo_step t (sk_name s) m)). intros [c ok] x. unfold combo_step, on_combo at 1. cbn [fst snd]. destruct (break_all_combos_only x); [reflexivity|].
    cbv zeta. set (c1 := match zget (combo_group x) (ct_last c) with Some _ => c | None => _ end).
    assert (E1 : match zget (combo_group x) (ct_last (ct_later c)) with
                 | Some _ => ct_later c
                 | None => mkComboTracker (zset (combo_group x) None (ct_last (ct_later c))) (ct_breakers (ct_later c)) end = ct_later c1).
    { unfold c1. cbn [ct_later ct_last ct_breakers]. rewrite zget_zmap. destruct (zget _ (ct_last c)); cbn [option_map]; [reflexivity|].
      change (@None (Z * string)) with (last_later None) at 1. rewrite zset_zmap. reflexivity. }
    rewrite E1, succeeded_later, update_combo_later. reflexivity. }
  rewrite map_id in E. unfold on_combo at 1 in E. cbn [fst snd] in E. rewrite E. clear E.
  destruct (fold_left (combo_step t (sk_name s) m) sp (ct, true)) as [c ok]. reflexivity.
Qed.

(** ** Trackers *)
Definition tk_later (tk : trackers) : trackers := mkTrackers (se_later (tk_se tk)) (jr_later (tk_jr tk)) (ct_later (tk_combo tk)).
Definition tk_lasting (tk : trackers) : Prop := lasting (tk_jr tk).
Lemma new_trackers_later lib job prio tk : new_trackers lib job prio = Ok tk -> tk_later tk = tk.
Proof.
  unfold new_trackers. intros E. apply bind_ok in E as (rs & _ & E). apply bind_ok in E as (br & _ & E). injection E as <-.
  unfold tk_later, se_later, jr_later, jr_init, ct_later, dmap. cbn. f_equal. rewrite map_map. reflexivity.
Qed.
Lemma new_trackers_lasting lib job prio tk : lasting_resources lib job -> new_trackers lib job prio = Ok tk -> tk_lasting tk.
Proof.
  intros L. unfold new_trackers. intros E. apply bind_ok in E as (rs & R & E). apply bind_ok in E as (br & _ & E). injection E as <-.
  unfold tk_lasting. cbn [tk_jr]. apply init_lasting. intros n c. exact (L rs n c R).
Qed.
Definition on_press (r : trackers * modifier * status_effects * status_effects) :=
  let '(tk, m, b, e) := r in (tk_later tk, m, b, e).
Lemma compile_press_later tk t s m : tk_lasting tk -> compile_press (tk_later tk) (t + d) s m = rmap on_press (compile_press tk t s m).
Proof.
  intros L. unfold compile_press. cbv zeta. cbn [tk_later tk_se tk_jr tk_combo]. rewrite expire_later, compile_buffs_later.
  destruct (compile_buffs _ t s) as [[se1 [bu mb]]|]; [|reflexivity]. cbn [rmap bind on_se fst snd]. rewrite compile_debuffs_later.
  destruct (compile_debuffs se1 t s _) as [[se2 [de md]]|]; [|reflexivity]. cbn [rmap bind on_se fst snd].
  rewrite compile_resources_later by exact L. destruct (compile_job_resources (tk_jr tk) t (sk_name s)) as [jr mj]. cbn [fst snd].
  rewrite compile_combo_later. destruct (compile_and_update_combo _ t s _) as [[ct mc]|]; reflexivity.
Qed.
Lemma compile_press_lasting tk t s m tk' m' bu de : tk_lasting tk -> compile_press tk t s m = Ok (tk', m', bu, de) -> tk_lasting tk'.
Proof.
  intros L E. unfold compile_press in E. cbv zeta in E. apply bind_ok in E as ([se1 [b1 mb]] & _ & E).
  apply bind_ok in E as ([se2 [d2 md]] & _ & E). destruct (compile_job_resources (tk_jr tk) t (sk_name s)) as [jr mj] eqn:J.
  apply bind_ok in E as ([ct mc] & _ & E). injection E as <- _ _ _. unfold tk_lasting. cbn [tk_jr].
  change jr with (fst (jr, mj)). rewrite <- J. apply compile_resources_lasting, L.
Qed.

(** ** The queue *)
Lemma event_lt_later a b : event_lt (event_later d a) (event_later d b) = event_lt a b.
Proof.
  unfold event_lt, event_ltb. cbn [event_later ev_priority ev_skill]. f_equal.
  destruct (Z.ltb_spec (ev_priority a + 1000 * d) (ev_priority b + 1000 * d)), (Z.ltb_spec (ev_priority a) (ev_priority b));
  destruct (Z.eqb_spec (ev_priority a + 1000 * d) (ev_priority b + 1000 * d)), (Z.eqb_spec (ev_priority a) (ev_priority b));
  reflexivity || lia.
Qed.
Lemma q_add_later qu p t o s m sn id a b c tg p' t' o' :
  p' = p + 1000 * d -> t' = t + d -> o' = option_map (fun z => z + d) o ->
  q_add (queue_later d qu) p' t' o' s m sn id a b c tg = rmap (queue_later d) (q_add qu p t o s m sn id a b c tg).
Proof.
  intros -> -> ->. unfold q_add. change (q_next_id (queue_later d qu)) with (q_next_id qu).
  change (q_heap (queue_later d qu)) with (map (event_later d) (q_heap qu)).
  destruct (match id with None => _ | Some i => _ end) as [eid nx]. cbv zeta.
  assert (S : opt_is (option_map (fun z => z + d) o) (t + d) = opt_is o t).
  { destruct o as [z|]; [|reflexivity]. cbn. apply eqb_later. }
  rewrite S.
  match goal with |- bind (heappush _ _ ?e) _ = rmap _ (bind (heappush _ _ ?e') _) => replace e with (event_later d e') end.
  - rewrite (heappush_map (event_later d) event_lt event_lt event_lt_later). destruct (heappush event_lt (q_heap qu) _); reflexivity.
  - unfold event_later. cbn. f_equal. destruct (opt_is o t), o; reflexivity.
Qed.
Lemma q_add_new_later qu p t o s m sn tg p' t' o' :
  p' = p + 1000 * d -> t' = t + d -> o' = option_map (fun z => z + d) o ->
  q_add_new (queue_later d qu) p' t' o' s m sn tg = rmap (queue_later d) (q_add_new qu p t o s m sn tg).
Proof. apply q_add_later. Qed.
Lemma ev_time_later e : ev_time (event_later d e) = ev_time e + d.
Proof. unfold ev_time. cbn. destruct (ev_secondary e); reflexivity. Qed.

(** ** One skill *)
Definition sim_later (sm : sim) : sim := mkSim (queue_later d (si_queue sm)) (dots_later d (si_dots sm)) (tk_later (si_tk sm)).
Definition sim_lasting (sm : sim) : Prop := tk_lasting (si_tk sm).

Lemma add_dot_entry_later fu e l :
  add_dot_entry fu (entry_later d e) (map (fun x => (fst x, map (entry_later d) (snd x))) l)
  = map (fun x => (fst x, map (entry_later d) (snd x))) (add_dot_entry fu e l).
Proof.
  induction l as [|[fu' es] l IH]; [reflexivity|]. cbn [add_dot_entry map fst snd]. destruct (follow_up_eqb fu fu').
  - cbn [map fst snd]. rewrite map_app. reflexivity.
  - cbn [map fst snd]. rewrite IH. reflexivity.
Qed.
Lemma dots_later_dmap ds : dots_later d ds = dmap (map (fun x => (fst x, map (entry_later d) (snd x)))) ds.
Proof. reflexivity. Qed.
Lemma add_dot_target_later fu e ds tg : add_dot_target fu (entry_later d e) (dots_later d ds) tg = dots_later d (add_dot_target fu e ds tg).
Proof.
  unfold add_dot_target. rewrite !dots_later_dmap, dget_dmap, <- dset_dmap, <- add_dot_entry_later. f_equal. f_equal.
  destruct (dget tg ds); reflexivity.
Qed.
Lemma non_dot_later sm fu k ps pa tg :
  process_non_dot_follow_up (sim_later sm) fu k (ps + d) (pa + d) tg = rmap sim_later (process_non_dot_follow_up sm fu k ps pa tg).
Proof.
  unfold process_non_dot_follow_up. cbv zeta.
  assert (E : (if fu_snap_buffs fu || fu_snap_debuffs fu
               then (ps + d, (SFlag (fu_snap_buffs fu), SFlag (fu_snap_debuffs fu)))
               else (pa + d + fu_delay fu, (SFlag true, SFlag true)))
            = let x := (if fu_snap_buffs fu || fu_snap_debuffs fu
               then (ps, (SFlag (fu_snap_buffs fu), SFlag (fu_snap_debuffs fu)))
               else (pa + fu_delay fu, (SFlag true, SFlag true))) in (fst x + d, snd x)).
  { destruct (fu_snap_buffs fu || fu_snap_debuffs fu); cbn [fst snd]; [reflexivity|]. f_equal. lia. }
  rewrite E. cbv zeta. destruct (if fu_snap_buffs fu || fu_snap_debuffs fu then (ps, _) else _) as [st sn]. cbn [fst snd].
  destruct (if fu_primary_only fu then _ else Ok tg) as [tg'|]; [|reflexivity]. cbn [bind].
  cbn [sim_later si_queue si_dots si_tk].
  rewrite (q_add_new_later (si_queue sm) (time_to_prio st + k) st (Some (pa + fu_delay fu)));
    [|unfold time_to_prio; lia|reflexivity|cbn; f_equal; lia].
  destruct (q_add_new (si_queue sm) _ _ _ _ _ _ _) as [qu|]; [|reflexivity]. cbn [bind rmap].
  replace (pa + d + fu_delay fu) with (pa + fu_delay fu + d) by lia. cbn [tk_later tk_se tk_jr tk_combo].
  rewrite add_status_later. destruct (add_to_status_effects _ _ _ _ _) as [se|]; [|reflexivity]. cbn [bind rmap].
  rewrite add_resource_later. destruct (add_resource _ _ _ _); reflexivity.
Qed.
Lemma non_dot_lasting sm fu k ps pa tg sm' : sim_lasting sm -> process_non_dot_follow_up sm fu k ps pa tg = Ok sm' -> sim_lasting sm'.
Proof.
  intros L E. unfold process_non_dot_follow_up in E. cbv zeta in E.
  destruct (if fu_snap_buffs fu || fu_snap_debuffs fu then (ps, _) else _) as [st sn].
  apply bind_ok in E as (tg' & _ & E). apply bind_ok in E as (qu & _ & E). apply bind_ok in E as (se & _ & E).
  apply bind_ok in E as (jr & J & E). injection E as <-. eapply add_resource_lasting; [exact L|exact J].
Qed.
Lemma follow_up_later ps pa tg sm ifu :
  process_follow_up (ps + d) (pa + d) tg (sim_later sm) ifu = rmap sim_later (process_follow_up ps pa tg sm ifu).
Proof.
  destruct ifu as [i fu]. unfold process_follow_up. destruct (fu_dot fu); [|apply non_dot_later].
  cbn [rmap]. unfold sim_later. cbn [si_queue si_dots si_tk]. f_equal. f_equal.
  rewrite <- (map_id tg) at 1. apply fold_left_map2. intros a b. exact (add_dot_target_later fu (ps, pa, i + 1) a b).
Qed.
Lemma follow_up_lasting ps pa tg sm ifu sm' : sim_lasting sm -> process_follow_up ps pa tg sm ifu = Ok sm' -> sim_lasting sm'.
Proof.
  destruct ifu as [i fu]. unfold process_follow_up. intros L. destruct (fu_dot fu); [|apply non_dot_lasting, L].
  intros E. injection E as <-. exact L.
Qed.
Lemma skill_times_later ts m t cast :
  skill_times ts m (t + d) cast = rmap (fun x => (fst x + d, snd x + d)) (skill_times ts m t cast).
Proof.
  unfold skill_times. cbv zeta. destruct (sm_ignore_application_delay m).
  - cbn [rmap fst snd]. f_equal. f_equal; lia.
  - destruct (of_option AttributeError ts); [|reflexivity]. cbn [bind rmap fst snd]. f_equal. f_equal; lia.
Qed.
Lemma skill_later st sm t s m bu tg :
  process_skill st (sim_later sm) (t + d) s m bu tg = rmap sim_later (process_skill st sm t s m bu tg).
Proof.
  unfold process_skill. destruct (get_timing_spec s m) as [ts|]; [|reflexivity]. cbn [bind].
  destruct (get_cast_time st ts m bu) as [cast|]; [|reflexivity]. cbn [bind]. rewrite skill_times_later.
  destruct (skill_times ts m t cast) as [[sn ap]|]; [|reflexivity]. cbn [bind rmap fst snd].
  cbn [sim_later si_queue si_dots si_tk].
  rewrite (q_add_new_later (si_queue sm) (time_to_prio sn) sn (Some ap)); [|apply prio_later|reflexivity|reflexivity].
  destruct (q_add_new (si_queue sm) _ _ _ _ _ _ _) as [qu|]; [|reflexivity]. cbn [bind rmap tk_later tk_se tk_jr tk_combo].
  rewrite add_status_later. destruct (add_to_status_effects _ _ _ _ _) as [se|]; [|reflexivity]. cbn [bind rmap].
  rewrite add_resource_later. destruct (add_resource _ _ _ _) as [jr|]; [|reflexivity]. cbn [bind rmap].
  destruct (get_follow_up_skills s m) as [fus|]; [|reflexivity]. cbn [bind].
  pose proof (foldM_map (process_follow_up sn ap tg) (process_follow_up (sn + d) (ap + d) tg) sim_later (enumerate fus)
    (fun a b => follow_up_later sn ap tg a b) (mkSim qu (si_dots sm) (mkTrackers se jr (tk_combo (si_tk sm))))) as K.
  exact K.
Qed.
Lemma skill_lasting st sm t s m bu tg sm' : sim_lasting sm -> process_skill st sm t s m bu tg = Ok sm' -> sim_lasting sm'.
Proof.
  intros L E. unfold process_skill in E. apply bind_ok in E as (ts & _ & E). apply bind_ok in E as (cast & _ & E).
  apply bind_ok in E as ([sn ap] & _ & E). apply bind_ok in E as (qu & _ & E). apply bind_ok in E as (se & _ & E).
  apply bind_ok in E as (jr & J & E). apply bind_ok in E as (fus & _ & E). eapply foldM_keeps; [|clear E|exact E].
  - intros a b a' La Ea. eapply follow_up_lasting; eassumption.
  - eapply add_resource_lasting; [exact L|exact J].
Qed.

(** ** Presses *)
Definition pass_later (p : pass) : pass :=
  mkPass (sim_later (pa_sim p)) (map (press_later d) (pa_press p)) (map (stamp_later d) (pa_stamps p)).
Definition pass_lasting (p : pass) : Prop := sim_lasting (pa_sim p).

Lemma timed_later st p x : pass_lasting p -> process_timed st (pass_later p) (asked_later d x) = rmap pass_later (process_timed st p x).
Proof.
  intros L. unfold process_timed. cbv zeta. cbn [asked_later tm_time tm_skill tm_modifier tm_job tm_targets pass_later pa_sim pa_press pa_stamps sim_later si_queue si_dots si_tk].
  rewrite compile_press_later by exact L. destruct (compile_press _ _ _ _) as [[[[tk m1] bu] de]|]; [|reflexivity]. cbn [rmap bind on_press].
  destruct (add_positional _ m1) as [m2|]; [|reflexivity]. cbn [bind].
  destruct (of_option IndexError _) as [main|]; [|reflexivity]. cbn [bind].
  pose proof (skill_later st (mkSim (si_queue (pa_sim p)) (si_dots (pa_sim p)) tk) (tm_time x) (tm_skill x) m2 bu (tm_targets x)) as K.
  cbn [sim_later si_queue si_dots si_tk] in K. unfold sim_later at 1 in K. cbn [si_queue si_dots si_tk] in K. rewrite K. clear K.
  destruct (process_skill _ _ _ _ _ _ _) as [sm|]; [|reflexivity]. cbn [bind rmap]. unfold pass_later. cbn [pa_sim pa_press pa_stamps].
  rewrite !map_app. reflexivity.
Qed.
Lemma timed_lasting st p x p' : pass_lasting p -> process_timed st p x = Ok p' -> pass_lasting p'.
Proof.
  intros L E. unfold process_timed in E. cbv zeta in E. apply bind_ok in E as ([[[tk m1] bu] de] & C & E).
  apply bind_ok in E as (m2 & _ & E). apply bind_ok in E as (main & _ & E). apply bind_ok in E as (sm & S & E). injection E as <-.
  eapply skill_lasting; [|exact S]. eapply compile_press_lasting; [exact L|exact C].
Qed.
Definition seq_later (ss : seq_state) : seq_state :=
  mkSeqState (pass_later (ss_pass ss)) (ss_t ss + d) (option_map (fun z => z + d) (ss_next_gcd ss)).
Definition seq_lasting (ss : seq_state) : Prop := pass_lasting (ss_pass ss).
Lemma process_seq_later st ss x : seq_lasting ss -> process_seq st (seq_later ss) x = rmap seq_later (process_seq st ss x).
Proof.
  intros L. unfold process_seq. cbv zeta.
  assert (T : press_time (sk_is_GCD (sq_skill x)) (ss_t (seq_later ss)) (ss_next_gcd (seq_later ss))
            = press_time (sk_is_GCD (sq_skill x)) (ss_t ss) (ss_next_gcd ss) + d).
  { unfold press_time, seq_later. cbn [ss_t ss_next_gcd]. destruct (sk_is_GCD _); [|reflexivity]. destruct (ss_next_gcd ss); cbn [option_map]; lia. }
  rewrite T. set (t := press_time _ (ss_t ss) _).
  cbn [seq_later ss_pass pass_later pa_sim pa_press pa_stamps sim_later si_queue si_dots si_tk].
  rewrite compile_press_later by exact L. destruct (compile_press _ t _ _) as [[[[tk m1] bu] de]|]; [|reflexivity]. cbn [rmap bind on_press].
  destruct (add_positional _ m1) as [m2|]; [|reflexivity]. cbn [bind].
  destruct (get_timing_spec _ m2) as [ts|]; [|reflexivity]. cbn [bind].
  destruct (of_option IndexError _) as [main|]; [|reflexivity]. cbn [bind].
  pose proof (skill_later st (mkSim (si_queue (pa_sim (ss_pass ss))) (si_dots (pa_sim (ss_pass ss))) tk) t (sq_skill x) m2 bu (sq_targets x)) as K.
  unfold sim_later at 1 in K. cbn [si_queue si_dots si_tk] in K. rewrite K. clear K.
  destruct (process_skill _ _ _ _ _ _ _) as [sm|]; [|reflexivity]. cbn [bind rmap].
  destruct (of_option AttributeError ts) as [ts'|]; [|reflexivity]. cbn [bind].
  destruct (sk_is_GCD (sq_skill x)).
  - destruct (get_recast_time _ _ _ _) as [rc|]; [|reflexivity]. cbn [bind]. destruct (get_cast_time _ _ _ _) as [ct|]; [|reflexivity].
    cbn [bind rmap]. f_equal. unfold seq_later, pass_later. cbn [ss_pass ss_t ss_next_gcd pa_sim pa_press pa_stamps option_map].
    rewrite !map_app. f_equal; [lia|]. f_equal. lia.
  - cbn [rmap]. f_equal. unfold seq_later, pass_later. cbn [ss_pass ss_t ss_next_gcd pa_sim pa_press pa_stamps].
    rewrite !map_app. f_equal. lia.
Qed.
Lemma process_seq_lasting st ss x ss' : seq_lasting ss -> process_seq st ss x = Ok ss' -> seq_lasting ss'.
Proof.
  intros L E. unfold process_seq in E. cbv zeta in E. apply bind_ok in E as ([[[tk m1] bu] de] & C & E).
  apply bind_ok in E as (m2 & _ & E). apply bind_ok in E as (ts & _ & E). apply bind_ok in E as (main & _ & E).
  apply bind_ok in E as (sm & S & E). apply bind_ok in E as (ts' & _ & E).
  assert (R : sim_lasting sm) by (eapply skill_lasting; [|exact S]; eapply compile_press_lasting; [exact L|exact C]).
  destruct (sk_is_GCD (sq_skill x)).
  - apply bind_ok in E as (rc & _ & E). apply bind_ok in E as (ct & _ & E). injection E as <-. exact R.
  - injection E as <-. exact R.
Qed.
Lemma timed_lt_later a b : timed_lt (asked_later d a) (asked_later d b) = timed_lt a b.
Proof. unfold timed_lt. cbn [asked_later tm_time tm_skill tm_modifier tm_job tm_targets]. rewrite eqb_later, ltb_later. reflexivity. Qed.

(** ** DoTs without server ticks and without trailing removal *)
Definition window_later (w : dot_window) : dot_window := let '(s, e, sn, pm) := w in (s + d, e + d, sn + d, pm).
Lemma base_later dur l : base_dot_timings dur (map (entry_later d) l) = map window_later (base_dot_timings dur l).
Proof.
  unfold base_dot_timings. rewrite <- (sort_by_map window_later dw_start dw_start).
  - f_equal. rewrite !map_map. apply map_ext. intros [[sn ap] pm]. cbn [entry_later window_later]. apply (f_equal (fun z => (ap + d, z, sn + d, pm))). lia.
  - intros [[[a b] c] e]. reflexivity.
Qed.
Lemma consolidate_later l : consolidate (map window_later l) = map window_later (consolidate l).
Proof.
  induction l as [|[[[s e] sn] pm] l IH]; [reflexivity|]. destruct l as [|[[[s' e'] sn'] pm'] l]; [reflexivity|].
  cbn [map window_later consolidate] in *. rewrite IH. do 4 f_equal. lia.
Qed.
Lemma ticks_later n : forall a step, ticks_n n (a + d) step = map (fun z => z + d) (ticks_n n a step).
Proof. induction n as [|n IH]; intros a step; [reflexivity|]. cbn [ticks_n map]. f_equal. rewrite <- IH. f_equal. lia. Qed.
Lemma range_later a b step : range_step (a + d) (b + d) step = map (fun z => z + d) (range_step a b step).
Proof. unfold range_step. replace (b + d - (a + d) + step - 1) with (b - a + step - 1) by lia. apply ticks_later. Qed.
Definition on_queue (x : queue * Z) : queue * Z := (queue_later d (fst x), snd x).
Lemma add_tick_later fu tg sn pm x t : add_tick fu tg None (sn + d) pm (on_queue x) (t + d) = rmap on_queue (add_tick fu tg None sn pm x t).
Proof.
  destruct x as [qu n]. unfold add_tick. cbn [on_queue fst snd is_trailing].
  rewrite (q_add_new_later qu (time_to_prio sn + (pm + n)) sn (Some t)); [|unfold time_to_prio; lia|reflexivity|reflexivity].
  destruct (q_add_new qu _ _ _ _ _ _ _); reflexivity.
Qed.
Lemma dot_window_later fu tg x w : add_dot_window None fu tg None (on_queue x) (window_later w) = rmap on_queue (add_dot_window None fu tg None x w).
Proof.
  destruct w as [[[s e] sn] pm]. unfold add_dot_window. cbn [window_later dot_first_tick]. rewrite range_later.
  apply (foldM_map2 _ _ _ _ (fun _ => True)); [|trivial|trivial]. intros a b _. apply add_tick_later.
Qed.
Lemma add_dot_later tg qu x :
  add_dot None tg None (queue_later d qu) (fst x, map (entry_later d) (snd x)) = rmap (queue_later d) (add_dot None tg None qu x).
Proof.
  destruct x as [fu es]. unfold add_dot. cbn [fst snd]. destruct (of_option TypeError (fu_dot fu)) as [dur|]; [|reflexivity]. cbn [bind].
  rewrite base_later, consolidate_later. change (queue_later d qu, 0) with (on_queue (qu, 0)).
  rewrite (foldM_map2 (add_dot_window None fu tg None) (add_dot_window None fu tg None) on_queue window_later (fun _ => True)); [|intros; apply dot_window_later|trivial|trivial].
  destruct (foldM _ _ (qu, 0)) as [[q' n]|]; reflexivity.
Qed.
Lemma all_dots_later ds qu : process_all_dots None (dots_later d ds) None (queue_later d qu) = rmap (queue_later d) (process_all_dots None ds None qu).
Proof.
  unfold process_all_dots, dots_later.
  apply (foldM_map2 _ _ (queue_later d) _ (fun _ => True)); [|trivial|trivial]. intros a [k l] _. cbn [fst snd].
  apply (foldM_map2 _ _ (queue_later d) _ (fun _ => True)); [|trivial|trivial]. intros a' x _. apply add_dot_later.
Qed.
End Move.
