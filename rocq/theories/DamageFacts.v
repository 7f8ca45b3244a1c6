(** * Facts about the damage builder: what each event does *)

From Coq Require Import ZArith QArith List String Bool Permutation Sorted Lia.
From Verif Require Import Base BaseFacts Heap HeapFacts Stats Strings Types Lookup StatusEffect JobResource Combo Events EventsFacts
  Rotation DamageBuild SpecQueue SpecDamage.
Import ListNotations.
Open Scope string_scope.
Open Scope Z_scope.

Lemma performed_app a b : forall tk tk1 tk2, performed tk a tk1 -> performed tk1 b tk2 -> performed tk (a ++ b)%list tk2.
Proof.
  induction a as [|c a IH]; intros tk tk1 tk2 H1 H2; inversion H1; subst; cbn; auto.
  econstructor; [eassumption|]. eapply IH; eassumption.
Qed.
Lemma performed_one tk c tk' : performs tk c tk' -> performed tk [c] tk'.
Proof. intro H. econstructor; [exact H | constructor]. Qed.

Lemma trackers_eta tk : mkTrackers (tk_se tk) (tk_jr tk) (tk_combo tk) = tk.
Proof. now destruct tk. Qed.

Lemma permutation_concat {A} (a b : list (list A)) : Permutation a b -> Permutation (List.concat a) (List.concat b).
Proof.
  induction 1; cbn; auto.
  - now apply Permutation_app_head.
  - rewrite !app_assoc. apply Permutation_app_tail, Permutation_app_comm.
  - etransitivity; eassumption.
Qed.

Lemma Forall2_impl_2 {A B} (R R' : A -> B -> Prop) l l' : (forall a b, R a b -> R' a b) -> Forall2 R l l' -> Forall2 R' l l'.
Proof. induction 2; constructor; auto. Qed.

(** ** The steps *)

Lemma resource_step tk t s m skip tk' m' :
  resource_conditional tk t s m skip = (tk', m') ->
  exists cs, asks_resources t s (negb skip) m cs m' /\ performed tk cs tk'.
Proof.
  unfold resource_conditional. destruct skip; cbn [negb].
  - intro H. injection H as <- <-. exists []. split; constructor.
  - destruct (compile_job_resources (tk_jr tk) t (sk_name s)) as [jr c] eqn:E. intro H. injection H as <- <-.
    exists [AsksResources t s c]. split; [constructor|]. apply performed_one. exists jr. auto.
Qed.
Lemma add_step tk t s m tk' :
  resources_added tk t s m false = Ok tk' -> performs tk (AddsResources t s m) tk'.
Proof. unfold resources_added. intro H. inv_bind H. injection H as <-. eexists. split; [eassumption | reflexivity]. Qed.
Lemma combo_step tk t s m tk' m' :
  combo_and_positional tk t s m false = Ok (tk', m') ->
  exists nc, performs tk (AsksCombo t s m nc) tk' /\ add_positional s (add_to_condition m nc) = Ok m'.
Proof.
  unfold combo_and_positional. intro H. inv_bind H. destruct a as [ct c]. inv_bind H. injection H as <- <-.
  exists c. split; [|assumption]. exists ct. split; [assumption | reflexivity].
Qed.

Lemma several_eq e : (1 <? Z.of_nat (List.length (ev_targets e))) = several e.
Proof.
  unfold several. destruct (Nat.ltb_spec 1 (List.length (ev_targets e))); [apply Z.ltb_lt | apply Z.ltb_ge]; lia.
Qed.
Lemma target_modifier_eq e m k : target_modifier (List.length (ev_targets e)) m k = placed e k m.
Proof. unfold target_modifier, placed. now rewrite several_eq. Qed.
Lemma target_time_eq e t k : target_time (List.length (ev_targets e)) t k = spread e t k.
Proof.
  unfold target_time, spread, MULTI_TARGET_DELAY_PER_TARGET. rewrite several_eq. destruct (several e); [lia | reflexivity].
Qed.

(** ** Application at the first time *)

Lemma strikes_fold e m b g jr ct l : forall k se out m0 se' out' mlast,
  foldM (apply_target (List.length (ev_targets e)) (ev_primary e) (ev_skill e) m b (SFlag g) (ev_id e)) (enum_from k l)
    (se, out, m0) = Ok (se', out', mlast) ->
  exists cs ms is, strikes e m b k l cs ms is
    /\ performed (mkTrackers se jr ct) cs (mkTrackers se' jr ct)
    /\ Permutation out' (out ++ is) /\ mlast = List.last ms m0.
Proof.
  induction l as [|x l IH]; cbn [enum_from foldM]; intros k se out m0 se' out' mlast H.
  - injection H as <- <- <-. exists [], [], []. rewrite app_nil_r. repeat split; auto; constructor.
  - inv_bind H. destruct a as [[se1 out1] m1]. unfold apply_target in E.
    inv_bind E. destruct a as [[se2 d] m2]. inv_bind E0. destruct a as [se3 [d' c]]. injection E0 as <- <- <-.
    rewrite target_modifier_eq in *. inv_bind E.
    assert (HP : performed (mkTrackers se jr ct) [AsksDebuffs (ev_primary e) (ev_skill e) x d' c] (mkTrackers se3 jr ct)).
    { apply performed_one. exists se3. auto. }
    assert (exists is, deals e (spread e (ev_primary e) k) x (add_to_condition (placed e k m) c) b d' is
                       /\ Permutation out1 (out ++ is) /\ se1 = se3 /\ m1 = add_to_condition (placed e k m) c)
      as (is & HD & HO & -> & ->).
    { destruct a as [sp|].
      - inv_bind E. pose proof (heappush_perm inst_lt _ _ _ E2) as P2. injection E as <- <- <-.
        rewrite target_time_eq in P2.
        eexists. split; [econstructor; eassumption|]. split; [|auto].
        rewrite <- P2. apply Permutation_cons_append.
      - injection E as <- <- <-. exists []. rewrite app_nil_r. split; [now constructor | auto]. }
    destruct (IH _ _ _ _ _ _ _ H) as (cs & ms & js & HS & HP' & HO' & ->).
    exists (AsksDebuffs (ev_primary e) (ev_skill e) x d' c :: cs), (add_to_condition (placed e k m) c :: ms), (is ++ js)%list.
    split; [now constructor|]. split; [now apply (performed_app [_] cs _ _ _ HP HP')|].
    split; [rewrite HO', HO, app_assoc; reflexivity|].
    clear -ms. revert ms. set (y := add_to_condition _ _). clearbody y. clear. intro ms.
    destruct ms as [|z ms]; [reflexivity|]. cbn [List.last]. revert z. induction ms; cbn; auto.
Qed.
Lemma strikes_length e m b k l cs ms is : strikes e m b k l cs ms is -> List.length ms = List.length l.
Proof. induction 1; cbn; congruence. Qed.

Lemma at_once_step tk out e tk' out' :
  fresh e ->
  application_event (mkTrackers (expire_status_effects (ev_primary e) (tk_se tk)) (tk_jr tk) (tk_combo tk)) out e = Ok (tk', out') ->
  exists cs is, applies_at_once e cs is /\ performed tk cs tk' /\ Permutation out' (out ++ is).
Proof.
  intros ((f & g & Esn) & Ejra & Ejrc & Ecc) H. unfold application_event in H.
  set (tk0 := mkTrackers (expire_status_effects (ev_primary e) (tk_se tk)) (tk_jr tk) (tk_combo tk)) in *.
  assert (H0 : performs tk (Expires (ev_primary e)) tk0) by reflexivity. clearbody tk0.
  rewrite Ejra, Ejrc, Ecc, Esn in H. cbn [fst snd] in H.
  destruct (resource_conditional tk0 (ev_primary e) (ev_skill e) (ev_modifier e) false) as [tk1 m1] eqn:E1.
  destruct (resource_step _ _ _ _ _ _ _ E1) as (c1 & A1 & P1). cbn [negb] in A1. inversion A1; subst c1 m1; clear A1.
  rename names into nr. set (m1 := add_to_condition (ev_modifier e) nr) in *.
  inv_bind H. rename a into tk2, E into E2. apply add_step in E2.
  inv_bind H. destruct a as [tk3 m2]. apply combo_step in E. destruct E as (nc & P3 & E3).
  inv_bind H. destruct a as [[se1 b] m3]. inv_bind E. destruct a as [se1' [b' nb]]. injection E as -> -> <-. rename E0 into E4.
  inv_bind H. destruct a as [[se2 out2] m4]. inv_bind H. injection H as <- <-. rename E into E5, E0 into E6, a into se3.
  destruct (strikes_fold e _ _ _ (tk_jr tk3) (tk_combo tk3) _ _ _ _ _ _ _ _ E5) as (cs & ms & is & HS & HP & HO & Hm).
  pose proof (strikes_length _ _ _ _ _ _ _ _ HS) as HL.
  eexists _, is. split; [|split; [|exact HO]].
  - eapply (at_once e nr nc nb m1 m2 _ b cs ms is (if Nat.eqb (List.length (ev_targets e)) 1 then m4 else add_to_condition m2 nb));
      try reflexivity; try assumption.
    rewrite <- HL. destruct ms as [|y [|z ms]]; cbn [List.length Nat.eqb] in *; subst m4; auto.
  - econstructor; [exact H0|]. apply (performed_app [_] _ _ _ _ P1).
    econstructor; [exact E2|]. econstructor; [exact P3|].
    econstructor; [exists se1; split; [exact E4 | reflexivity]|].
    eapply performed_app; [exact HP|]. apply performed_one. exists se3. split; [exact E6 | reflexivity].
Qed.

(** ** Snapshot *)

(** The event queued for one target. *)
Definition kid (np : Z) (app : Z) (e : event) (p : pending) : event :=
  mkEvent np (spread e app (pe_k p)) None (ev_skill e) (pe_modifier p) (pe_buffs p, pe_debuffs p) [pe_target p] (ev_id e)
    true (sk_job_resources_snapshot (ev_skill e)) true.

Lemma aims_fold e g sb m np app jr ct l : snd (ev_snap e) = SFlag g -> forall k se qu se' qu',
  foldM (snapshot_target (List.length (ev_targets e)) (ev_primary e) app np (ev_skill e) m (sb, SFlag g) (ev_id e)
           (sk_job_resources_snapshot (ev_skill e)) true) (enum_from k l) (se, qu) = Ok (se', qu') ->
  exists cs ps, aims e g sb m k l cs ps
    /\ performed (mkTrackers se jr ct) cs (mkTrackers se' jr ct)
    /\ Permutation (q_heap qu') (q_heap qu ++ map (kid np app e) ps)
    /\ (q_inv qu -> q_inv qu')
    /\ map (fun p => (pe_k p, pe_target p)) ps = enum_from k l.
Proof.
  intro Esn. induction l as [|x l IH]; cbn [enum_from foldM]; intros k se qu se' qu' H.
  - injection H as <- <-. exists [], []. cbn [map]. rewrite app_nil_r. repeat split; auto; constructor.
  - inv_bind H. destruct a as [se1 qu1]. unfold snapshot_target in E. cbn [fst snd] in E.
    rewrite target_modifier_eq, target_time_eq in E.
    assert (exists c1 sn m1, asks_debuffs (ev_primary e) (ev_skill e) x g (snd (ev_snap e)) (placed e k m) c1 sn m1
             /\ performed (mkTrackers se jr ct) c1 (mkTrackers se1 jr ct)
             /\ Permutation (q_heap qu1) (kid np app e (mkPending k x sb sn m1) :: q_heap qu)
             /\ (q_inv qu -> q_inv qu1))
      as (c1 & sn & m1 & HA & HP & HQ & HI).
    { inv_bind E. destruct a as [[se2 sn] m1]. inv_bind E. injection E as -> ->.
      rewrite q_add_eq in E1. pose proof (api_add_spec _ _ _ E1) as (PQ & _ & IQ).
      rewrite Esn. destruct g.
      - inv_bind E0. destruct a as [se3 [d c]]. injection E0 as -> <- <-.
        exists [AsksDebuffs (ev_primary e) (ev_skill e) x d c], (SEff d), (add_to_condition (placed e k m) c).
        split; [constructor|]. split; [apply performed_one; exists se1; auto|]. split; [exact PQ | exact IQ].
      - injection E0 as -> <- <-. exists [], (SFlag false), (placed e k m).
        split; [constructor|]. split; [constructor|]. split; [exact PQ | exact IQ]. }
    destruct (IH _ _ _ _ _ H) as (cs & ps & HS & HP' & HQ' & HI' & HE).
    exists (c1 ++ cs)%list, (mkPending k x sb sn m1 :: ps). split; [now constructor|].
    split; [eapply performed_app; eassumption|]. split; [|split; [auto | cbn [map pe_k pe_target]; now rewrite HE]].
    rewrite HQ', HQ. cbn [map]. apply Permutation_middle.
Qed.

Lemma snapshot_step tk qu e app tk' qu' :
  fresh e ->
  snapshot_event (mkTrackers (expire_status_effects (ev_primary e) (tk_se tk)) (tk_jr tk) (tk_combo tk)) qu e app = Ok (tk', qu') ->
  exists cs ps, snapshots e cs ps /\ performed tk cs tk'
    /\ Permutation (q_heap qu')
         (q_heap qu ++ map (kid (time_to_prio app + (time_to_prio (ev_primary e) - ev_priority e)) app e) ps)
    /\ (q_inv qu -> q_inv qu')
    /\ map (fun p => (pe_k p, pe_target p)) ps = enumerate (ev_targets e).
Proof.
  intros ((f & g & Esn) & Ejra & Ejrc & Ecc) H. unfold snapshot_event in H.
  set (tk0 := mkTrackers (expire_status_effects (ev_primary e) (tk_se tk)) (tk_jr tk) (tk_combo tk)) in *.
  assert (H0 : performs tk (Expires (ev_primary e)) tk0) by reflexivity. clearbody tk0.
  rewrite Ejra, Ejrc, Ecc, Esn in H. cbn [fst snd orb negb] in H.
  set (np := time_to_prio app + (time_to_prio (ev_primary e) - ev_priority e)) in *. clearbody np.
  inv_bind H. destruct a as [[se1 sb] m1].
  assert (exists c1, asks_buffs (ev_primary e) (ev_skill e) f (SFlag f) (ev_modifier e) c1 sb m1
                     /\ performed tk0 c1 (mkTrackers se1 (tk_jr tk0) (tk_combo tk0))) as (c1 & A1 & P1).
  { destruct f.
    - inv_bind E. destruct a as [se2 [b c]]. injection E as -> <- <-.
      exists [AsksBuffs (ev_primary e) (ev_skill e) b c]. split; [constructor|]. apply performed_one. exists se1. auto.
    - injection E as <- <- <-. exists []. rewrite trackers_eta. split; constructor. }
  clear E.
  destruct (resource_conditional _ _ _ m1 _) as [tk2 m2] eqn:E2.
  destruct (resource_step _ _ _ _ _ _ _ E2) as (c2 & A2 & P2). rewrite negb_involutive in A2.
  inv_bind H. destruct a as [tk3 m3]. apply combo_step in E. destruct E as (nc & P3 & E3).
  inv_bind H. rename a into tk4, E into E4. apply add_step in E4.
  inv_bind H. destruct a as [se2 qu2]. injection H as <- ->.
  rewrite negb_involutive in E.
  destruct (aims_fold e g sb m3 np app (tk_jr tk4) (tk_combo tk4) _ (f_equal snd Esn) _ _ _ _ _ E) as (cs & ps & HA & HP & HQ & HI & HE).
  eexists _, ps. split; [econstructor; eassumption|]. split; [|auto].
  econstructor; [exact H0|]. eapply performed_app; [exact P1|]. eapply performed_app; [exact P2|].
  econstructor; [exact P3|]. econstructor; [exact E4|]. rewrite <- (trackers_eta tk4). exact HP.
Qed.

(** ** Application on one target *)

Lemma later_step np app e p tk out tk' out' :
  let t := spread e app (pe_k p) in
  application_event (mkTrackers (expire_status_effects t (tk_se tk)) (tk_jr tk) (tk_combo tk)) out (kid np app e p) = Ok (tk', out') ->
  exists cs is, applies_later e t p cs is /\ performed tk cs tk' /\ Permutation out' (out ++ is).
Proof.
  intros t H. unfold application_event in H.
  set (tk0 := mkTrackers (expire_status_effects t (tk_se tk)) (tk_jr tk) (tk_combo tk)) in *.
  assert (H0 : performs tk (Expires t) tk0) by reflexivity. clearbody tk0.
  cbn [kid ev_primary ev_skill ev_modifier ev_jr_cond ev_jr_added ev_combo_cond ev_snap fst snd ev_targets ev_id] in H.
  fold t in H. clearbody t.
  destruct (resource_conditional tk0 t (ev_skill e) (pe_modifier p) _) as [tk1 m1] eqn:E1.
  destruct (resource_step _ _ _ _ _ _ _ E1) as (c1 & A1 & P1).
  cbn [resources_added combo_and_positional bind] in H.
  inv_bind H. destruct a as [[se1 b] m2].
  assert (exists c2, asks_buffs t (ev_skill e) (negb (taken (pe_buffs p))) (pe_buffs p) m1 c2 (SEff b) m2
                     /\ performed tk1 c2 (mkTrackers se1 (tk_jr tk1) (tk_combo tk1))) as (c2 & A2 & P2).
  { destruct (pe_buffs p) as [f|b0]; cbn [taken negb].
    - inv_bind E. destruct a as [se2 [b' c]]. injection E as -> -> <-.
      exists [AsksBuffs t (ev_skill e) b c]. split; [constructor|]. apply performed_one. exists se1. auto.
    - injection E as <- <- <-. exists []. rewrite trackers_eta. split; constructor. }
  clear E. cbn [List.length enumerate enum_from foldM Nat.eqb] in H.
  inv_bind H. destruct a as [[se2 out2] m3]. inv_bind H. injection H as <- ->. rename a into se3, E0 into EG.
  cbn [enumerate enum_from foldM] in E. inv_bind E. injection E as ->. unfold apply_target in E0.
  cbn [target_modifier target_time Z.of_nat Z.ltb Z.compare Pos.compare Pos.compare_cont Pos.of_succ_nat] in E0.
  inv_bind E0. destruct a as [[se4 d] m4].
  assert (exists c3, asks_debuffs t (ev_skill e) (pe_target p) (negb (taken (pe_debuffs p))) (pe_debuffs p) m2 c3 (SEff d) m4
             /\ performed (mkTrackers se1 (tk_jr tk1) (tk_combo tk1)) c3 (mkTrackers se4 (tk_jr tk1) (tk_combo tk1)))
    as (c3 & A3 & P3).
  { destruct (pe_debuffs p) as [f|b0]; cbn [taken negb].
    - inv_bind E. destruct a as [se5 [b' c]]. injection E as -> -> <-.
      exists [AsksDebuffs t (ev_skill e) (pe_target p) d c]. split; [constructor|]. apply performed_one. exists se4. auto.
    - injection E as <- <- <-. exists []. split; constructor. }
  clear E. inv_bind E0.
  assert (exists is, deals e t (pe_target p) m4 b d is /\ Permutation out' (out ++ is) /\ se2 = se4 /\ m3 = m4)
    as (is & HD & HO & -> & ->).
  { destruct a as [sp|].
    - inv_bind E0. pose proof (heappush_perm inst_lt _ _ _ E2) as PP. injection E0 as <- <- <-.
      eexists. split; [econstructor; eassumption|]. split; [|auto]. rewrite <- PP. apply Permutation_cons_append.
    - injection E0 as <- <- <-. exists []. rewrite app_nil_r. split; [now constructor | auto]. }
  eexists _, is. split; [econstructor; eassumption|]. split; [|exact HO].
  econstructor; [exact H0|]. eapply performed_app; [exact P1|]. eapply performed_app; [exact P2|].
  eapply performed_app; [exact P3|]. apply performed_one. exists se3. split; [exact EG | reflexivity].
Qed.

(** ** The loop *)

Lemma story_mono b h e is : story h e is -> story (b :: h) e is.
Proof.
  intros [cs is0 H1 H2 H3 | app cs ps iss H1 H2 H3].
  - eapply story_at_once; [assumption | eassumption | now right].
  - eapply story_apart; [eassumption | eassumption |].
    revert H3. clear. induction 1 as [|p is ps iss (cs' & H1 & pre & mid & post & H2) _ IH]; constructor; auto.
    exists cs'. split; [assumption|]. exists (b :: pre), mid, post. cbn. now rewrite H2.
Qed.

(** A target whose turn is still to come. *)
Record due := mkDue { du_event : event; du_app : Z; du_prio : Z; du_pending : pending }.
Definition due_event (r : due) : event := kid (du_prio r) (du_app r) (du_event r) (du_pending r).
Definition due_label (r : due) : Z * option Z := (ev_id (du_event r), Some (pe_k (du_pending r))).
Definition due_done (h : list block) (r : due) (is : list instance) : Prop :=
  exists cs, applies_later (du_event r) (spread (du_event r) (du_app r) (pe_k (du_pending r))) (du_pending r) cs is
    /\ In (mkBlock (ev_id (du_event r)) (Some (pe_k (du_pending r))) cs) h.
Lemma due_done_mono b h r is : due_done h r is -> due_done (b :: h) r is.
Proof. intros (cs & H1 & H2). exists cs. split; [assumption | now right]. Qed.

Lemma heap_cases (e : event) heap' F K :
  Permutation (e :: heap') (F ++ map due_event K) ->
  (exists F', Permutation F (e :: F') /\ Permutation heap' (F' ++ map due_event K))
  \/ (exists r K', e = due_event r /\ Permutation K (r :: K') /\ Permutation heap' (F ++ map due_event K')).
Proof.
  intro P. assert (Hin : In e (F ++ map due_event K)) by (apply (Permutation_in _ P); now left).
  apply in_app_or in Hin. destruct Hin as [Hin|Hin].
  - apply in_split in Hin. destruct Hin as (F1 & F2 & ->). left. exists (F1 ++ F2)%list.
    split; [symmetry; apply Permutation_middle|]. apply (Permutation_cons_inv (a := e)). rewrite P.
    rewrite <- !app_assoc. cbn [app]. symmetry. apply Permutation_middle.
  - apply in_map_iff in Hin. destruct Hin as (r & <- & Hin). apply in_split in Hin. destruct Hin as (K1 & K2 & ->).
    right. exists r, (K1 ++ K2)%list. split; [reflexivity|]. split; [symmetry; apply Permutation_middle|].
    apply (Permutation_cons_inv (a := due_event r)). rewrite P, !map_app. cbn [map].
    rewrite !app_assoc. symmetry. apply Permutation_middle.
Qed.
Lemma forall2_from_perm {A B} (R : A -> B -> Prop) l l' m' :
  Permutation l l' -> Forall2 R l' m' -> exists m, Permutation m m' /\ Forall2 R l m.
Proof.
  intros P H. destruct (Permutation_Forall2 (Permutation_sym P) H) as (m & P' & H'). exists m. split; [now symmetry | assumption].
Qed.

Lemma labels_apart e app ps np :
  ev_secondary e = Some app -> map (fun p => (pe_k p, pe_target p)) ps = enumerate (ev_targets e) ->
  labels_of e = (ev_id e, None) :: map due_label (map (mkDue e app np) ps).
Proof.
  intros E H. unfold labels_of. rewrite E, <- H, !map_map. reflexivity.
Qed.

Lemma in_order_cons b F F' h :
  Permutation F F' \/ (exists e, Permutation F (e :: F') /\ label b = (ev_id e, None) /\ (forall e', In e' F -> key_le e e')
     /\ forall e', In e' F' -> In (ev_id e', None) (map label h)) ->
  first_handled_in_order F' h -> first_handled_in_order F (b :: h).
Proof.
  intros [P | (e & P & Eb & Hmin & Hin)] H e1 e2 H1 H2 N.
  - destruct (H e1 e2 (Permutation_in _ P H1) (Permutation_in _ P H2) N) as (pre & mid & post & E).
    exists (label b :: pre), mid, post. cbn. now rewrite E.
  - apply (Permutation_in _ P) in H1 as H1'. apply (Permutation_in _ P) in H2 as H2'.
    destruct H2' as [<-|H2']; [destruct (N (Hmin _ H1))|].
    destruct H1' as [<-|H1'].
    + specialize (Hin _ H2'). apply in_split in Hin. destruct Hin as (l1 & l2 & E). exists [], l1, l2. cbn. now rewrite Eb, E.
    + destruct (H e1 e2 H1' H2' N) as (pre & mid & post & E). exists (label b :: pre), mid, post. cbn. now rewrite E.
Qed.
Lemma first_labels F h rest : Permutation (map label h) (flat_map labels_of F ++ rest) ->
  forall e, In e F -> In (ev_id e, None) (map label h).
Proof.
  intros P e He. apply (Permutation_in _ (Permutation_sym P)). apply in_or_app. left. apply in_flat_map. exists e. split; [exact He | now left].
Qed.

Lemma damage_loop_spec fuel : forall tk qu out tk' qu' out' F K,
  damage_loop fuel tk qu out = Ok (tk', qu', out') ->
  q_inv qu ->
  Permutation (q_heap qu) (F ++ map due_event K) ->
  Forall fresh F ->
  exists h issF issK,
    q_heap qu' = []
    /\ performed tk (flat_map bk_calls h) tk'
    /\ Permutation (map label h) (flat_map labels_of F ++ map due_label K)
    /\ Forall2 (story h) F issF /\ Forall2 (due_done h) K issK
    /\ Permutation out' (out ++ List.concat issF ++ List.concat issK)
    /\ first_handled_in_order F h.
Proof.
  induction fuel as [|fuel IH]; intros tk qu out tk' qu' out' F K H HI HP HF; cbn [damage_loop] in H; unfold q_is_empty in H.
  { destruct (q_heap qu) as [|e0 hp] eqn:Eh; [|discriminate H]. injection H as <- <- <-.
    apply Permutation_nil in HP. apply app_eq_nil in HP. destruct HP as [-> HP]. apply map_eq_nil in HP. subst K.
    exists [], [], []. cbn. rewrite app_nil_r. repeat split; auto; [constructor | intros e1 e2 []]. }
  destruct (q_heap qu) as [|e0 hp] eqn:Eh.
  { injection H as <- <- <-.
    apply Permutation_nil in HP. apply app_eq_nil in HP. destruct HP as [-> HP]. apply map_eq_nil in HP. subst K.
    exists [], [], []. cbn. rewrite app_nil_r. repeat split; auto; [constructor | intros e1 e2 []]. }
  rewrite <- Eh in HP. clear e0 hp Eh.
  inv_bind H. destruct a as [e qu1]. destruct (q_get_next_spec _ _ _ HI E) as (PE & _ & HI1 & HM). clear E.
  assert (HM' : forall e', In e' F -> key_le e e').
  { intros e' He'. apply HM. rewrite HP. apply in_or_app. now left. }
  inv_bind H. destruct a as [[tk1 qu2] out1]. rename E into ES.
  assert (HP1 : Permutation (e :: q_heap qu1) (F ++ map due_event K)) by (rewrite <- HP; now symmetry).
  clear PE HP. unfold damage_step in ES.
  destruct (heap_cases _ _ _ _ HP1) as [(F' & PF & PH) | (r & K' & -> & PK & PH)].
  - assert (HF1 : Forall fresh (e :: F')) by (rewrite <- PF; assumption).
    inversion HF1 as [|? ? He HF']; subst.
    destruct (ev_secondary e) as [app|] eqn:Es.
    + inv_bind ES. destruct a as [tk2 qu3]. injection ES as -> -> <-.
      destruct (snapshot_step _ _ _ _ _ _ He E) as (cs & ps & HS & HPf & HQ & HI2 & HE).
      set (np := time_to_prio app + (time_to_prio (ev_primary e) - ev_priority e)) in *.
      set (R := map (mkDue e app np) ps).
      destruct (IH _ _ _ _ _ _ F' (K ++ R)%list H (HI2 HI1)) as (h & issF & issK & Q1 & Q2 & Q3 & Q4 & Q5 & Q6 & Q7).
      { rewrite HQ, PH. unfold R. rewrite map_app, map_map, app_assoc. reflexivity. }
      { assumption. }
      apply Forall2_app_inv_l in Q5. destruct Q5 as (issK1 & issR & Q5 & Q5' & ->).
      set (b := mkBlock (ev_id e) None cs).
      assert (HST : story (b :: h) e (List.concat issR)).
      { eapply story_apart; [exact Es | exact HS |].
        revert Q5'. unfold R. clear. revert issR. induction ps as [|p ps IHp]; intros issR Q; inversion Q; subst; constructor; auto.
        destruct H1 as (cs' & HA & HB). exists cs'. split; [exact HA|].
        apply in_split in HB. destruct HB as (l1 & l2 & ->). exists [], l1, l2. reflexivity. }
      assert (HFF : Forall2 (story (b :: h)) (e :: F') (List.concat issR :: issF)).
      { constructor; [exact HST|]. eapply Forall2_impl_2; [|exact Q4]. intros. now apply story_mono. }
      destruct (forall2_from_perm _ _ _ _ PF HFF) as (issF0 & PiF & HFF0).
      exists (b :: h), issF0, issK1. split; [exact Q1|]. split.
      { cbn [flat_map]. eapply performed_app; [exact HPf | exact Q2]. }
      split.
      { cbn [map]. rewrite Q3. rewrite (Permutation_flat_map labels_of PF). cbn [flat_map].
        rewrite (labels_apart e app ps np Es HE). fold R. rewrite map_app. cbn [List.app]. constructor.
        rewrite (Permutation_app_comm (map due_label K)). rewrite !app_assoc. apply Permutation_app_tail, Permutation_app_comm. }
      split; [exact HFF0|]. split; [eapply Forall2_impl_2; [|exact Q5]; intros; now apply due_done_mono|].
      split.
      { rewrite Q6. apply Permutation_app_head. rewrite (permutation_concat _ _ PiF). cbn [List.concat].
        rewrite concat_app. rewrite (Permutation_app_comm (List.concat issK1)).
        rewrite !app_assoc. apply Permutation_app_tail, Permutation_app_comm. }
      apply (in_order_cons b F F'); [right; exists e | exact Q7].
      split; [exact PF|]. split; [reflexivity|]. split; [exact HM' | eapply first_labels; exact Q3].
    + inv_bind ES. destruct a as [tk2 out2]. injection ES as -> <- ->.
      destruct (at_once_step _ _ _ _ _ He E) as (cs & is & HA & HPf & HO).
      destruct (IH _ _ _ _ _ _ F' K H HI1 PH HF') as (h & issF & issK & Q1 & Q2 & Q3 & Q4 & Q5 & Q6 & Q7).
      set (b := mkBlock (ev_id e) None cs).
      assert (HFF : Forall2 (story (b :: h)) (e :: F') (is :: issF)).
      { constructor; [eapply story_at_once; [exact Es | exact HA | now left]|].
        eapply Forall2_impl_2; [|exact Q4]. intros. now apply story_mono. }
      destruct (forall2_from_perm _ _ _ _ PF HFF) as (issF0 & PiF & HFF0).
      exists (b :: h), issF0, issK. split; [exact Q1|]. split.
      { cbn [flat_map]. eapply performed_app; [exact HPf | exact Q2]. }
      split.
      { cbn [map]. rewrite Q3. rewrite (Permutation_flat_map labels_of PF). cbn [flat_map].
        unfold labels_of at 2. rewrite Es. reflexivity. }
      split; [exact HFF0|]. split; [eapply Forall2_impl_2; [|exact Q5]; intros; now apply due_done_mono|].
      split; [rewrite Q6, HO, (permutation_concat _ _ PiF); cbn [List.concat]; rewrite <- !app_assoc; reflexivity|].
      apply (in_order_cons b F F'); [right; exists e | exact Q7].
      split; [exact PF|]. split; [reflexivity|]. split; [exact HM' | eapply first_labels; exact Q3].
  - cbn [due_event kid ev_secondary] in ES. inv_bind ES. destruct a as [tk2 out2]. injection ES as -> <- ->.
    destruct (later_step _ _ _ _ _ _ _ _ E) as (cs & is & HA & HPf & HO).
    destruct (IH _ _ _ _ _ _ F K' H HI1 PH HF) as (h & issF & issK & Q1 & Q2 & Q3 & Q4 & Q5 & Q6 & Q7).
    set (b := mkBlock (ev_id (du_event r)) (Some (pe_k (du_pending r))) cs).
    assert (HKK : Forall2 (due_done (b :: h)) (r :: K') (is :: issK)).
    { constructor; [exists cs; split; [exact HA | now left]|].
      eapply Forall2_impl_2; [|exact Q5]. intros. now apply due_done_mono. }
    destruct (forall2_from_perm _ _ _ _ PK HKK) as (issK0 & PiK & HKK0).
    exists (b :: h), issF, issK0. split; [exact Q1|]. split.
    { cbn [flat_map]. eapply performed_app; [exact HPf | exact Q2]. }
    split.
    { cbn [map]. rewrite Q3, PK. cbn [map]. apply Permutation_middle. }
    split; [eapply Forall2_impl_2; [|exact Q4]; intros; now apply story_mono|]. split; [exact HKK0|].
    split.
    { rewrite Q6, HO, (permutation_concat _ _ PiK). cbn [List.concat]. rewrite <- !app_assoc. apply Permutation_app_head.
      rewrite !app_assoc. apply Permutation_app_tail, Permutation_app_comm. }
    apply (in_order_cons b F F); [now left | exact Q7].
Qed.

Theorem damage_instances_spec tk qu tk' qu' l :
  get_damage_instances tk qu = Ok (tk', qu', l) -> q_inv qu -> Forall fresh (q_heap qu) ->
  q_is_empty qu' = true /\ exists h hits, damage_run tk (q_heap qu) tk' l h hits /\ first_handled_in_order (q_heap qu) h.
Proof.
  intros H HI HF. unfold get_damage_instances in H. inv_bind H. destruct a as [[tk1 qu1] out]. injection H as -> -> <-.
  destruct (damage_loop_spec _ _ _ _ _ _ _ (q_heap qu) [] E HI) as (h & issF & issK & Q1 & Q2 & Q3 & Q4 & Q5 & Q6 & Q7); auto.
  { cbn [map]. now rewrite app_nil_r. }
  split; [unfold q_is_empty; now rewrite Q1|]. inversion Q5; subst issK. cbn [map List.concat app] in *. rewrite app_nil_r in *.
  exists h, issF. repeat split; auto.
  - rewrite <- Q6. apply sort_by_perm.
  - apply sort_by_sorted.
Qed.
