(** * Facts about the damage builder on the timelines of rotation builders *)

From Coq Require Import ZArith QArith List String Bool Permutation Sorted Lia.
From Verif Require Import Base BaseFacts Heap HeapFacts Stats Strings Types Lookup StatusEffect JobResource Combo Events EventsFacts
  Rotation DamageBuild FuelFacts SpecQueue SpecCond SpecPlay PlayFacts LogFacts SpecTimeline TimelineFacts SpecDots DotFacts RunFacts RunProps
  SpecRun SpecDamage DamageFacts DamageStory.
Import ListNotations.
Open Scope string_scope.
Open Scope Z_scope.

(** ** Timelines are fresh, with distinct ids *)

Definition flagged (sn : snap * snap) : Prop := exists f g, sn = (SFlag f, SFlag g).
Lemma flagged_both : flagged both. Proof. now exists true, true. Qed.

Lemma press_entries_flagged p : Forall (fun c => flagged (ad_snap c)) (press_entries p).
Proof.
  unfold press_entries. constructor; [apply flagged_both|].
  generalize 1. induction (pl_follow_ups p) as [|fu fus IH]; intros k; cbn [numbered]; [constructor|].
  apply Forall_app. split; [|apply IH]. unfold follow_up_entries. destruct (fu_dot fu); [constructor|].
  constructor; [|constructor]. cbn. destruct (_ || _); [eexists _, _; reflexivity | apply flagged_both].
Qed.
Lemma dot_calls_flagged server last d : Forall (fun c => flagged (ad_snap c)) (all_dot_calls server last d).
Proof.
  unfold all_dot_calls. apply Forall_forall. intros c H. apply in_flat_map in H as (kv & _ & H).
  apply in_flat_map in H as (x & _ & H). unfold dot_calls in H. destruct (fu_dot (fst x)); [|destruct H].
  revert H. generalize 0 (dot_ticks server last z (snd x)). intros n l. revert n.
  induction l as [|[e t] l IH]; intros n H; cbn in H; [destruct H|]. destruct H as [<-|H]; [|eapply IH; exact H].
  cbn. try apply flagged_both; eexists _, _; reflexivity.
Qed.
Lemma entry_flagged c : flagged (ad_snap c) -> flagged (ev_snap (entry c)).
Proof.
  intros H. cbn. destruct (ad_secondary c) as [t|]; [|exact H]. destruct (Z.eq_dec t (ad_primary c)); [apply flagged_both | exact H].
Qed.
Lemma downtimed_in w l l' e : downtimed w l l' -> In e l' -> exists e0 tg, In e0 l /\ e = with_targets e0 tg.
Proof.
  induction 1 as [|e0 l l' K D IH|e0 tg l l' K N D IH]; intro H; [destruct H| |].
  - destruct (IH H) as (e1 & tg & H1 & E). exists e1, tg. split; [now right | exact E].
  - destruct H as [<-|H]; [exists e0, tg; split; [now left | reflexivity]|].
    destruct (IH H) as (e1 & tg' & H1 & E). exists e1, tg'. split; [now right | exact E].
Qed.

Lemma timeline_prepared b b' :
  reachable b -> get_skill_timing b = Ok b' ->
  q_inv (b_queue b') /\ Forall fresh (q_heap (b_queue b')) /\ NoDup (map ev_id (q_heap (b_queue b')))
  /\ Forall (fun e => ev_targets e <> []) (q_heap (b_queue b')).
Proof.
  intros R H. destruct (run_spec _ _ H (reachable_dots _ R)) as (slog & tlog & q2 & autos & d & X). cbv zeta in X.
  destruct X as (_ & _ & Au & _ & _ & (evs & Dt & P) & Ids & _ & (I & G) & _).
  split; [exact I|]. split; [|split].
  - apply Forall_forall. intros e He. rewrite Forall_forall in G. destruct (G e He) as (_ & _ & A & B & C).
    split; [|auto].
    assert (Hin : In (anon e) evs) by (apply (Permutation_in _ P); unfold timeline; now apply in_map).
    destruct (downtimed_in _ _ _ _ Dt Hin) as (e0 & tg & H0 & E).
    apply in_map_iff in H0. destruct H0 as (e1 & <- & H1). apply in_map_iff in H1. destruct H1 as (c & <- & Hc).
    pose proof (f_equal ev_snap E) as Es. cbn in Es. rewrite Es. apply entry_flagged.
    apply in_app_or in Hc. destruct Hc as [Hc|Hc]; [|apply in_app_or in Hc; destruct Hc as [Hc|Hc]].
    + apply in_flat_map in Hc. destruct Hc as (p & _ & Hc). exact (proj1 (Forall_forall _ _) (press_entries_flagged p) c Hc).
    + exact (proj1 (Forall_forall _ _) (dot_calls_flagged _ _ _) c Hc).
    + rewrite Forall_forall in Au. destruct (Au c Hc) as (au & s & a & t & ->). apply flagged_both.
  - destruct Ids as (out & P1 & _ & E). rewrite P1, E. apply FinFun.Injective_map_NoDup; [intros x y; lia | apply seq_NoDup].
  - eapply Forall_impl; [|exact G]. intros e (_ & T & _). exact T.
Qed.

(** ** Labels are distinct *)

Lemma labels_id e lab : In lab (labels_of e) -> fst lab = ev_id e.
Proof.
  unfold labels_of. intros [<-|H]; [reflexivity|]. destruct (ev_secondary e); [|destruct H].
  apply in_map_iff in H. destruct H as (p & <- & _). reflexivity.
Qed.
Lemma enum_from_keys {A} (l : list A) : forall i, map fst (enum_from i l) = map (fun n => i + Z.of_nat n) (seq 0 (List.length l)).
Proof.
  induction l as [|a l IH]; intro i; cbn; [reflexivity|]. rewrite IH, <- seq_shift, map_map. f_equal; [lia|].
  apply map_ext. intro n. lia.
Qed.
Lemma labels_nodup_one e : NoDup (labels_of e).
Proof.
  unfold labels_of. constructor.
  - destruct (ev_secondary e); [|intros []]. intro H. apply in_map_iff in H. destruct H as (p & E & _). discriminate E.
  - destruct (ev_secondary e); [|constructor].
    apply (NoDup_map_inv (fun x => match snd x with Some k => k | None => 0 end)). rewrite map_map. cbn [snd].
    change (fun x : Z * string => fst x) with (@fst Z string). unfold enumerate. rewrite enum_from_keys.
    apply FinFun.Injective_map_NoDup; [intros x y; lia | apply seq_NoDup].
Qed.
Lemma labels_nodup l : NoDup (map ev_id l) -> NoDup (flat_map labels_of l).
Proof.
  induction l as [|e l IH]; intro N; cbn [flat_map]; [constructor|]. inversion N as [|? ? N1 N2]; subst.
  assert (D : forall x, In x (labels_of e) -> ~ In x (flat_map labels_of l)).
  { intros x H H'. apply N1. apply labels_id in H. apply in_flat_map in H'. destruct H' as (e' & He' & H').
    apply labels_id in H'. rewrite <- H, H'. now apply in_map. }
  generalize (labels_nodup_one e) (IH N2). revert D. generalize (labels_of e) (flat_map labels_of l). clear. intro l.
  induction l as [|x l IH]; intros l' D N N'; cbn [List.app]; [exact N'|]. inversion N; subst. constructor.
  - intro H. apply in_app_or in H. destruct H as [H|H]; [contradiction | exact (D x (or_introl eq_refl) H)].
  - apply IH; [intros y Hy; apply D; now right | assumption | assumption].
Qed.

(** ** Main results *)

Lemma damage_run_of_timeline b b' tk tk' qu' l :
  reachable b -> get_skill_timing b = Ok b' -> get_damage_instances tk (b_queue b') = Ok (tk', qu', l) ->
  q_is_empty qu' = true
  /\ exists h hits, damage_run tk (q_heap (b_queue b')) tk' l h hits /\ NoDup (map label h)
       /\ first_handled_in_order (q_heap (b_queue b')) h
       /\ Forall2 (fun e is => exists t, effect_time e t /\ lands e (described tk h e) t 0 (ev_targets e) is) (q_heap (b_queue b')) hits.
Proof.
  intros R H HD. destruct (timeline_prepared _ _ R H) as (I & F & N & _).
  destruct (damage_instances_spec _ _ _ _ _ HD I F) as (E & h & hits & X & O). split; [exact E|]. exists h, hits.
  split; [exact X|]. destruct X as (P & L & S & _).
  assert (NL : NoDup (map label h)) by (rewrite L; now apply labels_nodup). split; [exact NL|]. split; [exact O|].
  revert F S. generalize (q_heap (b_queue b')). intros evs F S.
  induction S as [|e is evs hits Hs S IH]; constructor; inversion F; subst; auto.
  eapply story_lands; eassumption.
Qed.

(** ** Termination *)

Definition weight (l : list event) : nat := fold_right (fun e n => (event_weight e + n)%nat) 0%nat l.
Lemma weight_perm l l' : Permutation l l' -> weight l = weight l'.
Proof. unfold weight. induction 1; cbn [fold_right]; lia. Qed.
Lemma weight_app l l' : weight (l ++ l') = (weight l + weight l')%nat.
Proof. unfold weight. induction l as [|e l IH]; cbn [List.app fold_right]; [reflexivity|]. rewrite IH. lia. Qed.

Lemma snapshot_fold_weight n t app np s m sn id jrc cc l : forall k se qu se' qu',
  foldM (snapshot_target n t app np s m sn id jrc cc) (enum_from k l) (se, qu) = Ok (se', qu') ->
  weight (q_heap qu') = (weight (q_heap qu) + List.length l)%nat /\ (q_inv qu -> q_inv qu').
Proof.
  induction l as [|x l IH]; cbn [enum_from foldM]; intros k se qu se' qu' H.
  - injection H as <- <-. cbn. split; [lia | auto].
  - inv_bind H. destruct a as [se1 qu1]. unfold snapshot_target in E. inv_bind E. destruct a as [[se2 sn1] m1]. inv_bind E.
    injection E as -> ->. rewrite q_add_eq in E1. apply api_add_spec in E1 as (PQ & _ & IQ).
    apply IH in H as (H & HI). rewrite H, (weight_perm _ _ PQ). cbn [weight fold_right event_weight List.length stored_event ev_secondary ad_secondary]. fold (weight (q_heap qu)). split; [lia | auto].
Qed.

Lemma nf_apply_target n t s m b sn id st it : nf (apply_target n t s m b sn id st it).
Proof.
  unfold apply_target. destruct st as [[se out] m0], it as [i x]. apply nf_bind.
  - destruct sn; [|apply nf_ok]. apply nf_bind; [apply nf_compile_debuffs|]. intros [se' [e c]] _. apply nf_ok.
  - intros [[se' d] m1] _. apply nf_bind; [apply nf_damage|]. intros [sp|] _; [|apply nf_ok].
    apply nf_bind; [apply nf_heappush; intros; unfold inst_lt; repeat destruct (negb _); discriminate | intros; apply nf_ok].
Qed.
Lemma nf_snapshot_target n t app np s m sn id jrc cc st it : nf (snapshot_target n t app np s m sn id jrc cc st it).
Proof.
  unfold snapshot_target. destruct st as [se qu], it as [i x]. apply nf_bind.
  - destruct (snd sn) as [[]|]; try apply nf_ok. apply nf_bind; [apply nf_compile_debuffs|]. intros [se' [e c]] _. apply nf_ok.
  - intros [[se' d] m1] _. apply nf_bind; [apply nf_q_add|]. intros; apply nf_ok.
Qed.
Lemma nf_combo_positional tk t s m p : nf (combo_and_positional tk t s m p).
Proof.
  unfold combo_and_positional. destruct p; [apply nf_ok|]. apply nf_bind; [apply nf_combo_update|]. intros [ct c] _.
  apply nf_bind; [apply nf_add_positional|]. intros; apply nf_ok.
Qed.
Lemma nf_resources_added tk t s m p : nf (resources_added tk t s m p).
Proof. unfold resources_added. destruct p; [apply nf_ok|]. apply nf_bind; [apply nf_add_resource|]. intros; apply nf_ok. Qed.

Lemma nf_damage_step tk qu out e : nf (damage_step tk qu out e).
Proof.
  unfold damage_step. destruct (ev_secondary e) as [app|].
  - apply nf_bind; [|intros [tk' qu'] _; apply nf_ok]. unfold snapshot_event. apply nf_bind.
    + destruct (fst (ev_snap e)) as [[]|]; try apply nf_ok. apply nf_bind; [apply nf_compile_buffs|]. intros [se' [b c]] _. apply nf_ok.
    + intros [[se1 sn0] m1] _. destruct (resource_conditional _ _ _ _ _) as [tk2 m2].
      apply nf_bind; [apply nf_combo_positional|]. intros [tk3 m3] _. apply nf_bind; [apply nf_resources_added|]. intros tk4 _.
      apply nf_bind; [apply nf_foldM; intros; apply nf_snapshot_target|]. intros [se2 qu'] _. apply nf_ok.
  - apply nf_bind; [|intros [tk' out'] _; apply nf_ok]. unfold application_event.
    destruct (resource_conditional _ _ _ _ _) as [tk1 m1]. apply nf_bind; [apply nf_resources_added|]. intros tk2 _.
    apply nf_bind; [apply nf_combo_positional|]. intros [tk3 m2] _. apply nf_bind.
    + destruct (fst (ev_snap e)); [|apply nf_ok]. apply nf_bind; [apply nf_compile_buffs|]. intros [se' [b' c]] _. apply nf_ok.
    + intros [[se1 bu] m3] _. apply nf_bind; [apply nf_foldM; intros; apply nf_apply_target|]. intros [[se2 out'] m4] _.
      apply nf_bind; [apply nf_status|]. intros; apply nf_ok.
Qed.

Lemma damage_loop_fuel fuel : forall tk qu out, q_inv qu -> (weight (q_heap qu) <= fuel)%nat -> nf (damage_loop fuel tk qu out).
Proof.
  induction fuel as [|fuel IH]; intros tk qu out I W; cbn [damage_loop]; unfold q_is_empty.
  - destruct (q_heap qu) as [|e l]; [apply nf_ok|]. cbn in W. unfold event_weight in W. destruct (ev_secondary e); lia.
  - destruct (q_heap qu) as [|e0 l0] eqn:Eh; [apply nf_ok|]. rewrite <- Eh in W. clear Eh e0 l0.
    apply nf_bind; [unfold q_get_next; apply nf_bind; [apply nf_heappop, nf_event_lt | intros [x y] _; apply nf_ok]|].
    intros [e qu1] E. apply q_get_next_spec in E as (P & _ & I1 & _); [|exact I].
    apply nf_bind; [apply nf_damage_step|]. intros [[tk1 qu2] out1] ES.
    assert (q_inv qu2 /\ (weight (q_heap qu2) < weight (q_heap qu))%nat) as (I2 & W2); [|apply IH; [exact I2 | lia]].
    rewrite (weight_perm _ _ P). cbn [weight fold_right]. fold (weight (q_heap qu1)).
    unfold damage_step in ES. unfold event_weight. destruct (ev_secondary e) as [app|].
    + inv_bind ES. destruct a as [tk2 qu3]. injection ES as -> -> <-. unfold snapshot_event in E.
      inv_bind E. destruct a as [[se1 sn0] m1]. destruct (resource_conditional _ _ _ _ _) as [tk3 m2].
      inv_bind E. destruct a as [tk4 m3]. inv_bind E. inv_bind E. destruct a0 as [se2 qu3]. injection E as _ ->.
      apply snapshot_fold_weight in E3 as (Wq & Iq). split; [auto|]. lia.
    + inv_bind ES. destruct a as [tk2 out2]. injection ES as _ <- _. split; [exact I1 | lia].
Qed.
Theorem damage_terminates tk qu : q_inv qu -> get_damage_instances tk qu <> Err OutOfFuel.
Proof.
  intros I. unfold get_damage_instances. apply nf_bind; [|intros [[tk' qu'] out] _; apply nf_ok].
  apply damage_loop_fuel; [exact I|]. reflexivity.
Qed.
