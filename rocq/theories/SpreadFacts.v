(** * More enemies in a skill that hits at once leave the others alone *)

From Coq Require Import ZArith QArith List String Bool Lia Permutation.
From Verif Require Import Base BaseFacts Heap HeapFacts Strings Types Lookup StatusEffect JobResource Combo Stats
  Library Events EventsFacts SpecQueue Rotation DamageBuild TargetFacts IdleFacts LaterFacts SpecCause CauseFacts SpecSpread.
Import ListNotations.
Open Scope string_scope.
Open Scope Z_scope.

Section Newcomers.
Variable new : string -> bool.

(** ** Status effects *)
Definition se_near (a b : se_tracker) : Prop :=
  se_buffs b = se_buffs a /\ se_priority b = se_priority a /\ forall x, new x = false -> get_debuffs b x = get_debuffs a x.

Lemma near_expire t a b : se_near a b -> se_near (expire_status_effects t a) (expire_status_effects t b).
Proof.
  intros (B & P & D). split; [|split; [exact P|]].
  - cbn [expire_status_effects se_buffs]. rewrite B. reflexivity.
  - intros x N. rewrite !get_expire, D by exact N. reflexivity.
Qed.
Lemma near_set_buffs a b d : se_near a b -> se_near (set_buffs a d) (set_buffs b d).
Proof. intros (B & P & D). split; [reflexivity|]. split; [exact P|exact D]. Qed.
Lemma near_set_debuffs a b x d : se_near a b -> se_near (set_debuffs a x d) (set_debuffs b x d).
Proof.
  intros (B & P & D). split; [exact B|]. split; [exact P|]. intros y N. rewrite !get_set. destruct (String.eqb y x); [reflexivity|apply D, N].
Qed.
Lemma near_set_new a b x d : new x = true -> se_near a b -> se_near a (set_debuffs b x d).
Proof.
  intros X (B & P & D). split; [exact B|]. split; [exact P|]. intros y N. rewrite get_set.
  destruct (String.eqb_spec y x) as [->|]; [congruence|apply D, N].
Qed.
Lemma near_set_new_l a b x d : new x = true -> se_near a b -> se_near (set_debuffs a x d) b.
Proof.
  intros X (B & P & D). split; [exact B|]. split; [exact P|]. intros y N. rewrite get_set.
  destruct (String.eqb_spec y x) as [->|]; [congruence|apply D, N].
Qed.
Lemma near_end a b n t x : se_near a b -> se_near (expire_named_effect a n t x) (expire_named_effect b n t x).
Proof.
  intros R. unfold expire_named_effect. cbv zeta. pose proof R as (B & P & D). rewrite B.
  pose proof (near_set_buffs a b (end_effect (se_buffs a) n t) R) as R1.
  change (get_debuffs (set_buffs ?a ?b) ?y) with (get_debuffs a y).
  destruct (new x) eqn:X.
  - assert (R2 : forall d, se_near (set_buffs a (end_effect (se_buffs a) n t)) (set_debuffs (set_buffs b (end_effect (se_buffs a) n t)) x d))
      by (intros d; apply near_set_new; assumption).
    destruct (dget n (get_debuffs a x)), (dget n (get_debuffs b x)); auto; apply near_set_new_l; auto.
  - rewrite (D x X). destruct (dget n (get_debuffs a x)); [apply near_set_debuffs|]; exact R1.
Qed.
Lemma near_fold {A} (f : se_tracker -> A -> se_tracker) l : (forall a b x, In x l -> se_near a b -> se_near (f a x) (f b x)) ->
  forall a b, se_near a b -> se_near (fold_left f l a) (fold_left f l b).
Proof.
  induction l as [|x l IH]; intros H a b R; [exact R|]. cbn [fold_left]. apply IH; [|apply H; [left; reflexivity|exact R]].
  intros a' b' y I. apply H. right. exact I.
Qed.
Lemma near_buff a b t n sp : se_near a b -> se_near (apply_buff a t n sp) (apply_buff b t n sp).
Proof.
  intros R. unfold apply_buff. cbv zeta. rewrite (proj1 R). apply near_fold; [|apply near_set_buffs, R]. intros c d k _. apply near_end.
Qed.
Lemma near_debuff t n sp a b x : new x = false -> se_near a b -> se_near (apply_debuff t n sp a x) (apply_debuff t n sp b x).
Proof.
  intros X R. unfold apply_debuff. apply near_fold; [intros c d k _; apply near_end|]. rewrite (proj2 (proj2 R) x X). apply near_set_debuffs, R.
Qed.

(** Ending the same buffs at the same time again changes nothing. *)
Definition over (t : Z) (names : list string) (d : dict active) : Prop :=
  forall n a, In n names -> dget n d = Some a -> ac_end a = Fin t.
Lemma over_end t names d n : over t names d -> over t names (end_effect d n t).
Proof.
  intros O k a I G. unfold end_effect in G. destruct (dget n d) as [c|] eqn:E; [|exact (O k a I G)].
  rewrite dget_dset in G. destruct (String.eqb k n); [injection G as <-; reflexivity|exact (O k a I G)].
Qed.
Lemma over_here t d n : over t [n] (end_effect d n t).
Proof.
  intros k a [<-|[]] G. unfold end_effect in G. destruct (dget n d) as [c|] eqn:E; [|congruence].
  rewrite dget_dset_same in G. injection G as <-. reflexivity.
Qed.
Lemma over_again t names d n : over t names d -> In n names -> end_effect d n t = d.
Proof.
  intros O I. unfold end_effect. destruct (dget n d) as [a|] eqn:E; [|reflexivity]. apply dset_same. rewrite E. f_equal.
  specialize (O n a I E). destruct a. cbn in *. rewrite O. reflexivity.
Qed.
Lemma buffs_end st n t x : se_buffs (expire_named_effect st n t x) = end_effect (se_buffs st) n t.
Proof. unfold expire_named_effect. cbv zeta. destruct (dget n _); reflexivity. Qed.
Lemma buffs_ends names t x : forall st, se_buffs (fold_left (fun s n => expire_named_effect s n t x) names st)
  = fold_left (fun d n => end_effect d n t) names (se_buffs st).
Proof. induction names as [|n l IH]; intros st; [reflexivity|]. cbn [fold_left]. rewrite IH, buffs_end. reflexivity. Qed.
Lemma over_ends t more names : forall d, over t more d -> over t (more ++ names) (fold_left (fun d n => end_effect d n t) names d).
Proof.
  revert more. induction names as [|n l IH]; intros more d O; cbn [fold_left]; [rewrite app_nil_r; exact O|].
  replace (more ++ n :: l)%list with ((more ++ [n]) ++ l)%list by (rewrite <- app_assoc; reflexivity). apply IH.
  intros k a I G. apply in_app_or in I as [I|I]; [exact (over_end _ _ _ n O k a I G)|exact (over_here t d n k a I G)].
Qed.
Lemma over_stays t names l d : over t names d -> incl l names -> fold_left (fun d n => end_effect d n t) l d = d.
Proof.
  induction l as [|n l IH]; intros O I; [reflexivity|]. cbn [fold_left]. rewrite (over_again t names d n O) by (apply I; left; reflexivity).
  apply IH; [exact O|]. intros k K. apply I. right. exact K.
Qed.
Lemma buffs_debuff t n sp st x : se_buffs (apply_debuff t n sp st x) = fold_left (fun d k => end_effect d k t) (expires_status_effects sp) (se_buffs st).
Proof. unfold apply_debuff. rewrite buffs_ends. reflexivity. Qed.
Lemma debuff_over t n sp st x : over t (expires_status_effects sp) (se_buffs (apply_debuff t n sp st x)).
Proof. rewrite buffs_debuff. apply (over_ends t []). intros k a []. Qed.
Lemma debuffs_over t n sp l : forall st, over t (expires_status_effects sp) (se_buffs st) \/ l <> [] ->
  over t (expires_status_effects sp) (se_buffs (fold_left (apply_debuff t n sp) l st)).
Proof.
  induction l as [|x l IH]; intros st H; [destruct H as [H|[]]; [exact H|reflexivity]|]. cbn [fold_left]. apply IH. left. apply debuff_over.
Qed.
Lemma near_end_new a b n t x : new x = true -> se_near a b -> end_effect (se_buffs b) n t = se_buffs b -> se_near a (expire_named_effect b n t x).
Proof.
  intros X R E. unfold expire_named_effect. cbv zeta. rewrite E.
  assert (R1 : se_near a (set_buffs b (se_buffs b))) by (destruct R as (B & P & D); split; [exact B|split; [exact P|exact D]]).
  destruct (dget n _); [apply near_set_new; assumption|exact R1].
Qed.
Lemma near_ends_new t x names l : new x = true -> forall a b, se_near a b -> over t names (se_buffs b) -> incl l names ->
  se_near a (fold_left (fun s n => expire_named_effect s n t x) l b).
Proof.
  intros X. induction l as [|n l IH]; intros a b R O I; [exact R|]. cbn [fold_left].
  assert (E : end_effect (se_buffs b) n t = se_buffs b) by (apply (over_again t names); [exact O|apply I; left; reflexivity]).
  apply IH.
  - apply near_end_new; assumption.
  - rewrite buffs_end, E. exact O.
  - intros k K. apply I. right. exact K.
Qed.
Lemma near_debuff_new t n sp a b x : new x = true -> se_near a b -> over t (expires_status_effects sp) (se_buffs b) -> se_near a (apply_debuff t n sp b x).
Proof.
  intros X R O. unfold apply_debuff. apply (near_ends_new t x (expires_status_effects sp)); [exact X|apply near_set_new; assumption|exact O|apply incl_refl].
Qed.
Lemma near_debuffs_new t n sp l : Forall (fun x => new x = true) l -> forall a b, se_near a b -> over t (expires_status_effects sp) (se_buffs b) ->
  se_near a (fold_left (apply_debuff t n sp) l b).
Proof.
  induction 1 as [|x l X F IH]; intros a b R O; [exact R|]. cbn [fold_left]. apply IH; [apply near_debuff_new; assumption|apply debuff_over].
Qed.
Lemma near_add a b t s m l extra x y :
  se_near a b -> Forall (fun x => new x = false) l -> Forall (fun x => new x = true) extra -> l <> [] \/ extra = [] ->
  add_to_status_effects a t s m l = Ok x -> add_to_status_effects b t s m (l ++ extra) = Ok y -> se_near x y.
Proof.
  intros R F G N. unfold add_to_status_effects. intros H H'.
  apply bind_ok in H as (bu & A & H). rewrite A in H'. cbn [bind] in H'. apply bind_ok in H as (de & A' & H). rewrite A' in H'. cbn [bind] in H'.
  injection H as <-. injection H' as <-.
  set (a1 := match bu with Some sp => apply_buff a t (sk_name s) sp | None => a end).
  set (b1 := match bu with Some sp => apply_buff b t (sk_name s) sp | None => b end).
  assert (R1 : se_near a1 b1) by (subst a1 b1; destruct bu; [apply near_buff|]; exact R).
  destruct de as [sp|]; [|exact R1]. rewrite fold_left_app.
  assert (R2 : se_near (fold_left (apply_debuff t (sk_name s) sp) l a1) (fold_left (apply_debuff t (sk_name s) sp) l b1)).
  { apply near_fold; [|exact R1]. intros c d k I. apply near_debuff. rewrite Forall_forall in F. exact (F k I). }
  destruct N as [N|N]; [|subst extra; exact R2].
  apply near_debuffs_new; [exact G|exact R2|]. apply debuffs_over. right. exact N.
Qed.
Lemma near_compile_buffs a b t s x y : se_near a b -> compile_buffs a t s = Ok x -> compile_buffs b t s = Ok y -> se_near (fst x) (fst y) /\ snd y = snd x.
Proof.
  intros R. unfold compile_buffs. pose proof R as (B & P & _). rewrite B, P. intros H H'. apply bind_ok in H as ([d r] & A & H). rewrite A in H'.
  cbn [bind] in H'. injection H as <-. injection H' as <-. split; [apply near_set_buffs, R|reflexivity].
Qed.
Lemma near_compile_debuffs a b t s z x y : new z = false -> se_near a b -> compile_debuffs a t s z = Ok x -> compile_debuffs b t s z = Ok y ->
  se_near (fst x) (fst y) /\ snd y = snd x.
Proof.
  intros Z R. unfold compile_debuffs. pose proof R as (_ & P & D). rewrite P, (D z Z). intros H H'. apply bind_ok in H as ([d r] & A & H).
  rewrite A in H'. cbn [bind] in H'. injection H as <-. injection H' as <-. split; [apply near_set_debuffs, R|reflexivity].
Qed.
Lemma compile_new a b t s z y : new z = true -> se_near a b -> compile_debuffs b t s z = Ok y -> se_near a (fst y).
Proof.
  intros Z R. unfold compile_debuffs. intros H. apply bind_ok in H as ([d r] & A & H). injection H as <-. apply near_set_new; assumption.
Qed.

(** ** An event at its application *)
Definition out_near (o o' : list instance) : Prop := Permutation o (without new o').

Lemma without_perm l l' : Permutation l l' -> Permutation (without new l) (without new l').
Proof. apply perm_filter. Qed.
Lemma out_push o o' i h h' : out_near o o' -> new (di_target i) = false -> heappush inst_lt o i = Ok h -> heappush inst_lt o' i = Ok h' -> out_near h h'.
Proof.
  intros R N H H'. apply heappush_perm in H. apply heappush_perm in H'. unfold out_near. rewrite <- (without_perm _ _ H'), <- H.
  cbn [without filter]. rewrite N. cbn [negb]. constructor. exact R.
Qed.
Lemma out_push_new o o' i h' : out_near o o' -> new (di_target i) = true -> heappush inst_lt o' i = Ok h' -> out_near o h'.
Proof.
  intros R N H'. apply heappush_perm in H'. unfold out_near. rewrite <- (without_perm _ _ H'). cbn [without filter]. rewrite N. exact R.
Qed.

Lemma several n n' m i t : n = n' \/ (2 <= n)%nat /\ (2 <= n')%nat -> target_modifier n m i = target_modifier n' m i /\ target_time n t i = target_time n' t i.
Proof.
  intros [->|[A B]]; [split; reflexivity|]. unfold target_modifier, target_time.
  destruct (Z.ltb_spec 1 (Z.of_nat n)), (Z.ltb_spec 1 (Z.of_nat n')); try lia. split; reflexivity.
Qed.

Lemma apply_old n n' t s m bu sn id l : n = n' \/ (2 <= n)%nat /\ (2 <= n')%nat -> Forall (fun x => new x = false) l ->
  forall k a b o o' m0 x y, se_near a b -> out_near o o' ->
  foldM (apply_target n t s m bu sn id) (enum_from k l) (a, o, m0) = Ok x ->
  foldM (apply_target n' t s m bu sn id) (enum_from k l) (b, o', m0) = Ok y ->
  se_near (fst (fst x)) (fst (fst y)) /\ out_near (snd (fst x)) (snd (fst y)) /\ snd y = snd x.
Proof.
  intros N. induction 1 as [|z l Z F IH]; intros k a b o o' m0 x y R O H H'.
  - cbn in H, H'. injection H as <-. injection H' as <-. repeat split; assumption || apply R.
  - cbn [enum_from foldM] in H, H'.
    apply bind_ok in H as ([[se1 o1] m1] & A & H). apply bind_ok in H' as ([[se1' o1'] m1'] & A' & H').
    unfold apply_target in A, A'. cbv zeta in A, A'. destruct (several n n' m k t N) as [T1 T2]. rewrite <- T1, <- T2 in A'.
    apply bind_ok in A as ([[se2 de] m2] & A1 & A). apply bind_ok in A' as ([[se2' de'] m2'] & A1' & A').
    assert (X : se_near se2 se2' /\ de' = de /\ m2' = m2).
    { destruct sn as [fl|e].
      - apply bind_ok in A1 as ([c [e1 c1]] & C & A1). apply bind_ok in A1' as ([c' [e1' c1']] & C' & A1').
        injection A1 as <- <- <-. injection A1' as <- <- <-. destruct (near_compile_debuffs _ _ _ _ _ _ _ Z R C C') as [R1 E].
        cbn [fst snd] in *. injection E as -> ->. repeat split; apply R1.
      - injection A1 as <- <- <-. injection A1' as <- <- <-. repeat split; apply R. }
    destruct X as (R1 & -> & ->). clear A1 A1'.
    apply bind_ok in A as (d & B & A). apply bind_ok in A' as (d' & B' & A'). rewrite B in B'. injection B' as <-.
    destruct d as [sp|].
    + apply bind_ok in A as (h & C & A). apply bind_ok in A' as (h' & C' & A'). injection A as <- <- <-. injection A' as <- <- <-.
      eapply IH; [exact R1 | | exact H | exact H']. eapply out_push; [exact O| |exact C|exact C']. exact Z.
    + injection A as <- <- <-. injection A' as <- <- <-. eapply IH; [exact R1|exact O|exact H|exact H'].
Qed.
Lemma apply_new n t s m bu sn id l : Forall (fun x => new x = true) l ->
  forall k a b o o' m0 y, se_near a b -> out_near o o' ->
  foldM (apply_target n t s m bu sn id) (enum_from k l) (b, o', m0) = Ok y ->
  se_near a (fst (fst y)) /\ out_near o (snd (fst y)).
Proof.
  induction 1 as [|z l Z F IH]; intros k a b o o' m0 y R O H'.
  - cbn in H'. injection H' as <-. split; assumption.
  - cbn [enum_from foldM] in H'. apply bind_ok in H' as ([[se1' o1'] m1'] & A' & H').
    unfold apply_target in A'. cbv zeta in A'. apply bind_ok in A' as ([[se2' de'] m2'] & A1' & A').
    assert (R1 : se_near a se2').
    { destruct sn as [fl|e].
      - apply bind_ok in A1' as ([c' [e1' c1']] & C' & A1'). injection A1' as <- <- <-. exact (compile_new _ _ _ _ _ _ Z R C').
      - injection A1' as <- <- <-. exact R. }
    apply bind_ok in A' as (d' & B' & A'). destruct d' as [sp|].
    + apply bind_ok in A' as (h' & C' & A'). injection A' as <- <- <-. eapply IH; [exact R1| |exact H'].
      eapply out_push_new; [exact O| |exact C']. exact Z.
    + injection A' as <- <- <-. eapply IH; [exact R1|exact O|exact H'].
Qed.

Definition tk_near (a b : trackers) : Prop := se_near (tk_se a) (tk_se b) /\ tk_jr b = tk_jr a /\ tk_combo b = tk_combo a.
Lemma near_conditional a b t s m k : tk_near a b ->
  tk_near (fst (resource_conditional a t s m k)) (fst (resource_conditional b t s m k))
  /\ snd (resource_conditional b t s m k) = snd (resource_conditional a t s m k).
Proof.
  intros (S & J & C). unfold resource_conditional. destruct k; [split; [split; [exact S|split; assumption]|reflexivity]|]. rewrite J.
  destruct (compile_job_resources (tk_jr a) t (sk_name s)) as [jr c]. split; [|reflexivity]. split; [exact S|]. split; [reflexivity|exact C].
Qed.
Lemma near_added a b t s m k x y : tk_near a b -> resources_added a t s m k = Ok x -> resources_added b t s m k = Ok y -> tk_near x y.
Proof.
  intros (S & J & C). unfold resources_added. destruct k.
  - intros H H'. injection H as <-. injection H' as <-. split; [exact S|split; assumption].
  - rewrite J. intros H H'. apply bind_ok in H as (jr & A & H). rewrite A in H'. cbn [bind] in H'. injection H as <-. injection H' as <-.
    split; [exact S|]. split; [reflexivity|exact C].
Qed.
Lemma near_combo a b t s m p x y : tk_near a b -> combo_and_positional a t s m p = Ok x -> combo_and_positional b t s m p = Ok y ->
  tk_near (fst x) (fst y) /\ snd y = snd x.
Proof.
  intros (S & J & C). unfold combo_and_positional. destruct p.
  - intros H H'. injection H as <-. injection H' as <-. split; [split; [exact S|split; assumption]|reflexivity].
  - rewrite C. intros H H'. apply bind_ok in H as ([ct c] & A & H). rewrite A in H'. cbn [bind] in H'.
    apply bind_ok in H as (m' & A' & H). rewrite A' in H'. cbn [bind] in H'. injection H as <-. injection H' as <-.
    split; [|reflexivity]. split; [exact S|]. split; [exact J|reflexivity].
Qed.

Lemma application_near a b o o' e extra x y :
  tk_near a b -> out_near o o' -> Forall (fun x => new x = false) (ev_targets e) -> Forall (fun x => new x = true) extra ->
  extra = [] \/ (2 <= List.length (ev_targets e))%nat ->
  application_event a o e = Ok x -> application_event b o' (also_on e extra) = Ok y -> tk_near (fst x) (fst y) /\ out_near (snd x) (snd y).
Proof.
  intros T O F G N. unfold application_event. cbv zeta. cbn [also_on ev_primary ev_skill ev_modifier ev_snap ev_targets ev_id ev_jr_added ev_jr_cond ev_combo_cond].
  destruct (near_conditional a b (ev_primary e) (ev_skill e) (ev_modifier e) (ev_jr_cond e) T) as [T1 M1].
  destruct (resource_conditional a _ _ _ _) as [a1 m1], (resource_conditional b _ _ _ _) as [b1 m1']. cbn [fst snd] in *. subst m1'. intros H H'.
  apply bind_ok in H as (a2 & A & H). apply bind_ok in H' as (b2 & A' & H'). pose proof (near_added _ _ _ _ _ _ _ _ T1 A A') as T2. clear A A'.
  apply bind_ok in H as ([a3 m2] & A & H). apply bind_ok in H' as ([b3 m2'] & A' & H'). destruct (near_combo _ _ _ _ _ _ _ _ T2 A A') as [T3 M2].
  cbn [fst snd] in *. subst m2'. clear A A'. destruct T3 as (S3 & J3 & C3).
  apply bind_ok in H as ([[se1 bu] m3] & A & H). apply bind_ok in H' as ([[se1' bu'] m3'] & A' & H').
  assert (X : se_near se1 se1' /\ bu' = bu /\ m3' = m3).
  { destruct (fst (ev_snap e)) as [fl|ef].
    - apply bind_ok in A as ([c [e1 c1]] & C & A). apply bind_ok in A' as ([c' [e1' c1']] & C' & A').
      injection A as <- <- <-. injection A' as <- <- <-. destruct (near_compile_buffs _ _ _ _ _ _ S3 C C') as [R1 E].
      cbn [fst snd] in *. injection E as -> ->. repeat split; apply R1.
    - injection A as <- <- <-. injection A' as <- <- <-. repeat split; apply S3. }
  destruct X as (S4 & -> & ->). clear A A'.
  assert (NN : List.length (ev_targets e) = List.length (ev_targets e ++ extra)
               \/ (2 <= List.length (ev_targets e))%nat /\ (2 <= List.length (ev_targets e ++ extra))%nat).
  { rewrite app_length. destruct N as [->|N]; [left; cbn; lia|right; lia]. }
  apply bind_ok in H as ([[se2 o2] m4] & A & H). apply bind_ok in H' as ([[se2' o2'] m4'] & A' & H').
  unfold enumerate in A, A'. rewrite enum_from_app, BaseFacts.foldM_app in A'. apply bind_ok in A' as ([[se2a o2a] m4a] & A1 & A2).
  destruct (apply_old _ _ _ _ _ _ _ _ _ NN F _ _ _ _ _ _ _ _ S4 O A A1) as (S5 & O5 & M5). cbn [fst snd] in *.
  destruct (apply_new _ _ _ _ _ _ _ _ G _ _ _ _ _ _ _ S5 O5 A2) as (S6 & O6). cbn [fst snd] in *.
  apply bind_ok in H as (se3 & B & H). apply bind_ok in H' as (se3' & B' & H'). injection H as <-. injection H' as <-. cbn [fst snd tk_se tk_jr tk_combo].
  split; [|exact O6]. split; [|split; assumption].
  assert (E : (if Nat.eqb (List.length (ev_targets e ++ extra)) 1 then m4' else m3) = (if Nat.eqb (List.length (ev_targets e)) 1 then m4 else m3)).
  { destruct N as [->|N].
    - rewrite app_nil_r. cbn in A2. injection A2 as _ _ <-. rewrite M5. reflexivity.
    - destruct (Nat.eqb_spec (List.length (ev_targets e ++ extra)) 1) as [Q|_]; [rewrite app_length in Q; lia|].
      destruct (Nat.eqb_spec (List.length (ev_targets e)) 1) as [Q|_]; [lia|reflexivity]. }
  rewrite E in B'. eapply near_add; [exact S6|exact F|exact G| |exact B|exact B'].
  destruct N as [->|N]; [right; reflexivity|left]. intros Q. rewrite Q in N. cbn in N. lia.
Qed.

(** ** An event at its snapshot, on the same targets *)
Lemma snapshot_old n t app pr s m sn id jrc cc l : Forall (fun x => new x = false) l ->
  forall k a b qu qu' x y, 0 <= k -> se_near a b ->
  foldM (snapshot_target n t app pr s m sn id jrc cc) (enum_from k l) (a, qu) = Ok x ->
  foldM (snapshot_target n t app pr s m sn id jrc cc) (enum_from k l) (b, qu') = Ok y ->
  se_near (fst x) (fst y)
  /\ exists news, Permutation (q_heap (snd x)) (news ++ q_heap qu) /\ Permutation (q_heap (snd y)) (news ++ q_heap qu')
       /\ (q_inv qu -> q_inv (snd x)) /\ (q_inv qu' -> q_inv (snd y))
       /\ List.length news = List.length l
       /\ Forall (fun x => ev_priority x = pr /\ ev_skill x = s /\ ev_secondary x = None /\ app <= ev_primary x /\ (n = 1%nat -> ev_primary x = app)) news
       /\ Forall (fun x => Forall (fun y => new y = false) (ev_targets x)) news.
Proof.
  induction 1 as [|z l Z F IH]; intros k a b qu qu' x y K R H H'.
  - cbn in H, H'. injection H as <-. injection H' as <-. cbn. split; [exact R|]. exists []. repeat split; auto.
  - cbn [enum_from foldM] in H, H'.
    apply bind_ok in H as ([se1 q1] & A & H). apply bind_ok in H' as ([se1' q1'] & A' & H').
    unfold snapshot_target in A, A'. cbv zeta in A, A'.
    apply bind_ok in A as ([[se2 sn1] m2] & A1 & A). apply bind_ok in A' as ([[se2' sn1'] m2'] & A1' & A').
    assert (X : se_near se2 se2' /\ sn1' = sn1 /\ m2' = m2).
    { destruct (snd sn) as [[|]|e].
      - apply bind_ok in A1 as ([c [e1 c1]] & C & A1). apply bind_ok in A1' as ([c' [e1' c1']] & C' & A1').
        injection A1 as <- <- <-. injection A1' as <- <- <-. destruct (near_compile_debuffs _ _ _ _ _ _ _ Z R C C') as [R1 E].
        cbn [fst snd] in *. injection E as -> ->. repeat split; apply R1.
      - injection A1 as <- <- <-. injection A1' as <- <- <-. repeat split; apply R.
      - injection A1 as <- <- <-. injection A1' as <- <- <-. repeat split; apply R. }
    destruct X as (R1 & -> & ->). clear A1 A1'.
    apply bind_ok in A as (q2 & B & A). apply bind_ok in A' as (q2' & B' & A'). injection A as <- <-. injection A' as <- <-.
    rewrite q_add_eq in B, B'. apply api_add_spec in B as (P & _ & I). apply api_add_spec in B' as (P' & _ & I').
    cbn [stored_event ad_priority ad_primary ad_secondary ad_skill ad_modifier ad_snap ad_id ad_jr_added ad_jr_cond ad_combo_cond ad_targets] in P, P'.
    assert (K1 : 0 <= k + 1) by lia.
    destruct (IH _ _ _ _ _ _ _ K1 R1 H H') as (E1 & news & Q & Q' & J & J' & Ln & W & V). split; [exact E1|].
    eexists (news ++ [_])%list. rewrite <- !app_assoc. cbn [List.app].
    split; [rewrite Q; apply Permutation_app_head, P|]. split; [rewrite Q'; apply Permutation_app_head, P'|].
    split; [auto|]. split; [auto|]. split; [rewrite app_length; cbn; lia|]. split.
    + apply Forall_app. split; [exact W|]. constructor; [|constructor]. cbn. repeat split; [apply target_time_ge, K|].
      intros ->. reflexivity.
    + apply Forall_app. split; [exact V|]. constructor; [|constructor]. cbn. constructor; [exact Z|constructor].
Qed.

Lemma snapshot_near a b qu qu' e app x y :
  tk_near a b -> Forall (fun x => new x = false) (ev_targets e) ->
  snapshot_event a qu e app = Ok x -> snapshot_event b qu' e app = Ok y ->
  tk_near (fst x) (fst y)
  /\ exists news, Permutation (q_heap (snd x)) (news ++ q_heap qu) /\ Permutation (q_heap (snd y)) (news ++ q_heap qu')
       /\ (q_inv qu -> q_inv (snd x)) /\ (q_inv qu' -> q_inv (snd y))
       /\ List.length news = List.length (ev_targets e) /\ left_by e app news
       /\ Forall (fun x => Forall (fun y => new y = false) (ev_targets x)) news.
Proof.
  intros T F. unfold snapshot_event. cbv zeta. intros H H'. destruct T as (S & J & K).
  apply bind_ok in H as ([[se1 sn0] m1] & A & H). apply bind_ok in H' as ([[se1' sn0'] m1'] & A' & H').
  assert (X : se_near se1 se1' /\ sn0' = sn0 /\ m1' = m1).
  { destruct (fst (ev_snap e)) as [[|]|ef].
    - apply bind_ok in A as ([c [e1 c1]] & C & A). apply bind_ok in A' as ([c' [e1' c1']] & C' & A').
      injection A as <- <- <-. injection A' as <- <- <-. destruct (near_compile_buffs _ _ _ _ _ _ S C C') as [R1 E].
      cbn [fst snd] in *. injection E as -> ->. repeat split; apply R1.
    - injection A as <- <- <-. injection A' as <- <- <-. repeat split; apply S.
    - injection A as <- <- <-. injection A' as <- <- <-. repeat split; apply S. }
  destruct X as (S1 & -> & ->). clear A A'. rewrite J, K in H'.
  assert (T1 : tk_near (mkTrackers se1 (tk_jr a) (tk_combo a)) (mkTrackers se1' (tk_jr a) (tk_combo a))) by (split; [exact S1|split; reflexivity]).
  set (skip := ev_jr_cond e || negb (sk_job_resources_snapshot (ev_skill e))) in *.
  destruct (near_conditional _ _ (ev_primary e) (ev_skill e) m1 skip T1) as [T2 M2].
  destruct (resource_conditional (mkTrackers se1 _ _) _ _ _ _) as [a2 m2], (resource_conditional (mkTrackers se1' _ _) _ _ _ _) as [b2 m2']. cbn [fst snd] in *. subst m2'.
  apply bind_ok in H as ([a3 m3] & A & H). apply bind_ok in H' as ([b3 m3'] & A' & H'). destruct (near_combo _ _ _ _ _ _ _ _ T2 A A') as [T3 M3].
  cbn [fst snd] in *. subst m3'. clear A A'.
  apply bind_ok in H as (a4 & A & H). apply bind_ok in H' as (b4 & A' & H'). pose proof (near_added _ _ _ _ _ _ _ _ T3 A A') as (S4 & J4 & K4). clear A A'.
  apply bind_ok in H as ([se2 q2] & A & H). apply bind_ok in H' as ([se2' q2'] & A' & H'). injection H as <-. injection H' as <-.
  destruct (snapshot_old _ _ _ _ _ _ _ _ _ _ _ F _ _ _ _ _ _ _ (Z.le_refl 0) S4 A A') as (E & news & P & P' & I & I' & L & W & V).
  cbn [fst snd tk_se tk_jr tk_combo] in *. split; [split; [exact E|split; assumption]|]. exists news. repeat (split; [assumption|]). exact V.
Qed.

Lemma step_near a b qu qu' o o' e e' x y :
  tk_near a b -> out_near o o' -> joined at_once new e e' ->
  damage_step a qu o e = Ok x -> damage_step b qu' o' e' = Ok y ->
  tk_near (fst (fst x)) (fst (fst y)) /\ out_near (snd x) (snd y)
  /\ exists news,
       Permutation (q_heap (snd (fst x))) (news ++ q_heap qu) /\ Permutation (q_heap (snd (fst y))) (news ++ q_heap qu')
       /\ (q_inv qu -> q_inv (snd (fst x))) /\ (q_inv qu' -> q_inv (snd (fst y)))
       /\ match ev_secondary e with None => news = [] | Some app => List.length news = List.length (ev_targets e) /\ left_by e app news end
       /\ Forall (fun x => Forall (fun y => new y = false) (ev_targets x)) news.
Proof.
  intros (S & J & K) O (extra & -> & F & G & N). unfold damage_step. cbv zeta.
  assert (T : tk_near (mkTrackers (expire_status_effects (ev_primary e) (tk_se a)) (tk_jr a) (tk_combo a))
                      (mkTrackers (expire_status_effects (ev_primary (also_on e extra)) (tk_se b)) (tk_jr b) (tk_combo b))).
  { split; [apply near_expire, S|]. split; assumption. }
  change (ev_secondary (also_on e extra)) with (ev_secondary e).
  destruct (ev_secondary e) as [app|] eqn:Sec; intros H H'.
  - assert (extra = []) as -> by (destruct extra; [reflexivity|destruct (N ltac:(discriminate)) as [Q _]; unfold at_once in Q; congruence]).
    assert (Z : also_on e [] = e) by (destruct e; unfold also_on; cbn; rewrite app_nil_r; reflexivity). rewrite Z in *.
    apply bind_ok in H as ([tk1 q1] & A & H). apply bind_ok in H' as ([tk1' q1'] & A' & H'). injection H as <-. injection H' as <-.
    destruct (snapshot_near _ _ _ _ _ _ _ _ T F A A') as (E & news & P & P' & I & I' & L & W & V). cbn [fst snd] in *. split; [exact E|]. split; [exact O|].
    exists news. repeat (split; [assumption|]). split; [split; assumption|exact V].
  - apply bind_ok in H as ([tk1 o1] & A & H). apply bind_ok in H' as ([tk1' o1'] & A' & H'). injection H as <-. injection H' as <-.
    assert (N' : extra = [] \/ (2 <= List.length (ev_targets e))%nat).
    { destruct extra; [left; reflexivity|right]. apply (N ltac:(discriminate)). }
    destruct (application_near _ _ _ _ _ _ _ _ T O F G N' A A') as (E & W). cbn [fst snd] in *. split; [exact E|]. split; [exact W|].
    exists []. repeat (split; [assumption || reflexivity || auto|]). constructor.
Qed.

(** ** The loop *)
Lemma joined_self e : Forall (fun y => new y = false) (ev_targets e) -> joined at_once new e e.
Proof.
  intros F. exists []. split; [destruct e; unfold also_on; cbn; rewrite app_nil_r; reflexivity|]. split; [exact F|]. split; [constructor|]. intros N; destruct (N eq_refl).
Qed.
Lemma joined_key e e' : joined at_once new e e' -> ev_priority e' = ev_priority e /\ sk_name (ev_skill e') = sk_name (ev_skill e).
Proof. intros (extra & -> & _). split; reflexivity. Qed.
Lemma key_le_joined a b a' b' : ev_priority a' = ev_priority a -> sk_name (ev_skill a') = sk_name (ev_skill a) ->
  ev_priority b' = ev_priority b -> sk_name (ev_skill b') = sk_name (ev_skill b) -> key_le a' b' -> key_le a b.
Proof. unfold key_le. intros -> -> -> ->. auto. Qed.
Lemma forall2_in_l {A B} (R : A -> B -> Prop) l m x : Forall2 R l m -> In x l -> exists y, In y m /\ R x y.
Proof.
  induction 1 as [|a b l m r F IH]; intros I; [destruct I|]. destruct I as [<-|I]; [exists b; split; [left; reflexivity|exact r]|].
  destruct (IH I) as (y & J & Q). exists y. split; [right; exact J|exact Q].
Qed.

Lemma loops_near fuel : forall fuel' a b qu qu' o o' l l' x y,
  q_inv qu -> q_inv qu' -> Permutation (q_heap qu) l -> Permutation (q_heap qu') l' -> Forall2 (joined at_once new) l l' ->
  Forall orderly l -> distinct_places l -> tk_near a b -> out_near o o' ->
  damage_loop fuel a qu o = Ok x -> damage_loop fuel' b qu' o' = Ok y -> out_near (snd x) (snd y).
Proof.
  induction fuel as [|fuel IH]; intros fuel' a b qu qu' o o' l l' x y I I' P P' J O D T Z H H'.
  all: assert (Em : q_is_empty qu' = q_is_empty qu) by
    (unfold q_is_empty; apply Permutation_length in P; apply Permutation_length in P'; pose proof (forall2_length _ _ _ J);
     destruct (q_heap qu), (q_heap qu'); cbn in *; reflexivity || lia).
  all: destruct (q_is_empty qu) eqn:E; cbn [damage_loop] in H; rewrite E in H; try discriminate H.
  1,2: injection H as <-; destruct fuel'; cbn [damage_loop] in H'; rewrite Em in H'; injection H' as <-; exact Z.
  destruct fuel' as [|fuel']; cbn [damage_loop] in H'; rewrite Em in H'; [discriminate H'|].
  apply bind_ok in H as ([e q1] & G & H). apply bind_ok in H' as ([e' q1'] & G' & H').
  apply q_get_next_spec in G as (Q & _ & I1 & M); [|exact I]. apply q_get_next_spec in G' as (Q' & _ & I1' & M'); [|exact I'].
  assert (Je : In e l) by (apply (Permutation_in _ P), (Permutation_in _ (Permutation_sym Q)); left; reflexivity).
  assert (Je' : In e' l') by (apply (Permutation_in _ P'), (Permutation_in _ (Permutation_sym Q')); left; reflexivity).
  apply in_split in Je' as (l1' & l2' & E').
  rewrite E' in J. apply Forall2_app_inv_r in J as (l1 & l2z & J1 & J2 & E1). inversion J2 as [|z e0 l2 m2 Jz J3]; subst e0 m2 l2z.
  assert (z = e).
  { destruct (joined_key _ _ Jz) as [K1 K2].
    destruct (forall2_in_l (joined at_once new) l l' e) as (p & Jp & Rp); [subst l l'; apply Forall2_app; assumption|exact Je|].
    destruct (joined_key _ _ Rp) as [K3 K4].
    assert (L1 : key_le z e).
    { apply (key_le_joined z e e' p K1 K2 K3 K4). apply M', (Permutation_in _ (Permutation_sym P')), Jp. }
    assert (Iz : In z l) by (subst l; apply in_or_app; right; left; reflexivity).
    assert (L2 : key_le e z) by (apply M, (Permutation_in _ (Permutation_sym P)), Iz).
    destruct (key_le_same _ _ L1 L2). apply (place_unique l); assumption. }
  subst z. clear Je.
  apply bind_ok in H as ([[tk1 q2] o1] & S & H). apply bind_ok in H' as ([[tk1' q2'] o1'] & S' & H').
  destruct (step_near _ _ _ _ _ _ _ _ _ _ T Z Jz S S') as (T1 & Z1 & news & R & R' & X & X' & N & V). cbn [fst snd] in *.
  assert (Pe : Permutation l (e :: l1 ++ l2)) by (subst l; symmetry; apply Permutation_middle).
  assert (Q1 : Permutation (q_heap q1) (l1 ++ l2)).
  { apply (Permutation_cons_inv (a := e)). rewrite <- Q, P. exact Pe. }
  assert (Q1' : Permutation (q_heap q1') (l1' ++ l2')).
  { apply (Permutation_cons_inv (a := e')). rewrite <- Q', P', E'. symmetry. apply Permutation_middle. }
  destruct (step_orderly e (l1 ++ l2) news) as [O1 D1]; [exact (forall_perm _ _ _ Pe O)|exact (places_perm _ _ Pe D)|exact N|].
  apply (IH fuel' tk1 tk1' q2 q2' o1 o1' (news ++ l1 ++ l2)%list (news ++ l1' ++ l2')%list x y); auto.
  - rewrite R. apply Permutation_app_head, Q1.
  - rewrite R'. apply Permutation_app_head, Q1'.
  - apply Forall2_app; [|apply Forall2_app; assumption]. clear - V. induction V as [|u v U V IH]; constructor; [apply joined_self, U|exact IH].
Qed.

Theorem others_keep_damage tk qu qu' tk1 tk1' q1 q1' l l' :
  q_inv qu -> q_inv qu' -> newcomers_join at_once new (q_heap qu) (q_heap qu') -> Forall orderly (q_heap qu) -> distinct_places (q_heap qu) ->
  get_damage_instances tk qu = Ok (tk1, q1, l) -> get_damage_instances tk qu' = Ok (tk1', q1', l') ->
  Permutation l (without new l').
Proof.
  unfold get_damage_instances. intros I I' (m & P & J) O D H H'.
  apply bind_ok in H as ([[tka qa] oa] & R & H). apply bind_ok in H' as ([[tkb qb] ob] & R' & H').
  injection H as <- <- <-. injection H' as <- <- <-.
  rewrite (without_perm _ _ (sort_by_perm di_time ob)). etransitivity; [apply sort_by_perm|].
  refine (loops_near _ _ tk tk qu qu' [] [] _ m _ _ I I' (Permutation_refl _) P J O D _ _ R R').
  - repeat split.
  - constructor.
Qed.
End Newcomers.
