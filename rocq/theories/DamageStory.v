(** * Facts about the damage builder: what the hits of an event are made of *)

From Coq Require Import ZArith QArith List String Bool Permutation Sorted Lia.
From Verif Require Import Base BaseFacts Heap HeapFacts Stats Strings Types Lookup StatusEffect JobResource Combo Events EventsFacts
  Rotation DamageBuild SpecQueue SpecCond CondFacts SpecRun ApiFacts AoeFacts SpecDamage DamageFacts.
Import ListNotations.
Open Scope string_scope.
Open Scope Z_scope.

(** ** Modifiers *)

Lemma extends_refl m : extends m m.
Proof. split; [destruct m; reflexivity | apply incl_refl]. Qed.
Lemma extends_trans a b c : extends a b -> extends b c -> extends a c.
Proof.
  intros (E1 & I1) (E2 & I2). split; [|eapply incl_tran; eassumption].
  rewrite E2, E1. destruct a; reflexivity.
Qed.
Lemma extends_add m c : extends m (add_to_condition m c).
Proof.
  split; [apply add_to_condition_fields|]. intros x H. apply add_to_condition_in. now left.
Qed.
Lemma extends_placed e k m : extends m (placed e k m).
Proof. unfold placed. destruct (several e); [apply extends_add | apply extends_refl]. Qed.
Lemma positional_cases s m m' : add_positional s m = Ok m' -> exists np, m' = add_to_condition m np.
Proof.
  unfold add_positional. destruct (get_positional_condition s m) as [c|[]]; intro H; try discriminate H.
  - injection H as <-. now exists c.
  - injection H as <-. now exists "".
Qed.

Lemma split_parts parts : parts <> [] -> (forall p, In p parts -> comma_free p) -> split_comma (String.concat "," parts) = parts.
Proof.
  induction parts as [|p parts IH]; intros N F; [congruence|]. destruct parts as [|p' parts].
  - apply split_comma_free, F. now left.
  - change (String.concat "," (p :: p' :: parts)) with (p ++ "," ++ String.concat "," (p' :: parts)).
    rewrite split_comma_cons by (apply F; now left). f_equal. apply IH; [discriminate|]. intros q H. apply F. now right.
Qed.
Lemma names_condition_iff s c : names_condition s c <-> In c (canonicalize s).
Proof.
  split.
  - intros (cs & (_ & [(-> & ->)|(N & parts & Np & E & F & H)]) & Hc); [destruct Hc|].
    apply H in Hc. destruct Hc as (p & Hp & T). apply canonicalize_in. split; [assumption|].
    exists p. split; [rewrite E, split_parts; assumption | now apply strip_iff].
  - intro H. exists (canonicalize s). split; [apply canonicalize_named | exact H].
Qed.
Lemma add_names m n c : In c (sm_cond (add_to_condition m n)) <-> In c (sm_cond m) \/ names_condition n c.
Proof. rewrite names_condition_iff. apply add_to_condition_in. Qed.

Lemma placed_in e k m c : 0 <= k ->
  In c (sm_cond (placed e k m)) <-> In c (sm_cond m) \/ several e = true /\ c = "Target " ++ string_of_Z (k + 1).
Proof.
  intro Hk. unfold placed. destruct (several e); [|split; [auto | intros [H|(H & _)]; [exact H | discriminate H]]].
  pose proof (add_target_in m (k + 1) c) as H. unfold tname in H. rewrite H by lia. tauto.
Qed.

(** ** Blocks *)

Lemma tagged_app h h' : tagged (h ++ h')%list = (tagged h ++ tagged h')%list.
Proof. apply flat_map_app. Qed.
Lemma tagged_calls h : map snd (tagged h) = flat_map bk_calls h.
Proof.
  induction h as [|b h IH]; [reflexivity|]. cbn. rewrite map_app, map_map. unfold tagged in IH. rewrite IH. cbn. now rewrite map_id.
Qed.
Lemma in_tagged lab c h : In (lab, c) (tagged h) <-> exists b, In b h /\ label b = lab /\ In c (bk_calls b).
Proof.
  unfold tagged. rewrite in_flat_map. split.
  - intros (b & H & H'). apply in_map_iff in H'. destruct H' as (c' & E & H'). injection E as <- <-. eauto.
  - intros (b & H & <- & H'). exists b. split; [exact H|]. now apply in_map.
Qed.
Lemma performed_app_inv a b : forall tk tk', performed tk (a ++ b)%list tk' ->
  exists tk1, performed tk a tk1 /\ performed tk1 b tk'.
Proof.
  induction a as [|c a IH]; cbn; intros tk tk' H; [exists tk; split; [constructor | exact H]|].
  inversion H as [|tk0 c0 tk1 l tk2 H1 H2]; subst. destruct (IH _ _ H2) as (tk2 & H3 & H4). exists tk2. split; [econstructor; eassumption | exact H4].
Qed.
Lemma label_unique h b b' : NoDup (map label h) -> In b h -> In b' h -> label b = label b' -> b = b'.
Proof.
  induction h as [|a h IH]; cbn; intros N H H' E; [destruct H|]. inversion N as [|? ? N1 N2]; subst.
  destruct H as [<-|H], H' as [<-|H']; auto.
  - destruct N1. rewrite E. now apply in_map.
  - destruct N1. rewrite <- E. now apply in_map.
Qed.

(** No call in the list starts effects. *)
Definition quiet (cs : list call) : Prop := forall t s m targets, ~ In (Grants t s m targets) cs.
Lemma quiet_nil : quiet []. Proof. intros ? ? ? ? []. Qed.
Lemma quiet_cons c cs : (forall t s m tg, c <> Grants t s m tg) -> quiet cs -> quiet (c :: cs).
Proof. intros H Q t s m tg [E|E]; [exact (H _ _ _ _ E) | exact (Q _ _ _ _ E)]. Qed.
Lemma quiet_app a b : quiet a -> quiet b -> quiet (a ++ b).
Proof. intros H H' t s m tg E. apply in_app_or in E. destruct E as [E|E]; [exact (H _ _ _ _ E) | exact (H' _ _ _ _ E)]. Qed.
Lemma quiet_prefix a b : quiet (a ++ b) -> quiet a.
Proof. intros H t s m tg E. apply (H t s m tg). apply in_or_app. now left. Qed.
Lemma quiet_buffs t s f sn m cs sn' m' : asks_buffs t s f sn m cs sn' m' -> quiet cs.
Proof. destruct 1; [apply quiet_cons; [discriminate | apply quiet_nil] | apply quiet_nil]. Qed.
Lemma quiet_debuffs t s x f sn m cs sn' m' : asks_debuffs t s x f sn m cs sn' m' -> quiet cs.
Proof. destruct 1; [apply quiet_cons; [discriminate | apply quiet_nil] | apply quiet_nil]. Qed.
Lemma quiet_resources t s f m cs m' : asks_resources t s f m cs m' -> quiet cs.
Proof. destruct 1; [apply quiet_cons; [discriminate | apply quiet_nil] | apply quiet_nil]. Qed.
Lemma quiet_strikes e m b k l cs ms is : strikes e m b k l cs ms is -> quiet cs.
Proof. induction 1; [apply quiet_nil | apply quiet_cons; [discriminate | assumption]]. Qed.
Lemma quiet_aims e f sb m k l cs ps : aims e f sb m k l cs ps -> quiet cs.
Proof. induction 1; [apply quiet_nil | apply quiet_app; [eapply quiet_debuffs; eassumption | assumption]]. Qed.
Lemma quiet_snapshots e cs ps : snapshots e cs ps -> quiet cs.
Proof.
  destruct 1. apply quiet_cons; [discriminate|]. apply quiet_app; [eapply quiet_buffs; eassumption|].
  apply quiet_app; [eapply quiet_resources; eassumption|]. apply quiet_cons; [discriminate|]. apply quiet_cons; [discriminate|].
  eapply quiet_aims; eassumption.
Qed.

Lemma buffs_now t s sn m cs sn' m' : asks_buffs t s true sn m cs sn' m' ->
  exists e names, cs = [AsksBuffs t s e names] /\ sn' = SEff e /\ m' = add_to_condition m names.
Proof. inversion 1; eauto. Qed.
Lemma buffs_later t s sn m cs sn' m' : asks_buffs t s false sn m cs sn' m' -> cs = [] /\ sn' = sn /\ m' = m.
Proof. inversion 1; auto. Qed.
Lemma debuffs_now t s x sn m cs sn' m' : asks_debuffs t s x true sn m cs sn' m' ->
  exists e names, cs = [AsksDebuffs t s x e names] /\ sn' = SEff e /\ m' = add_to_condition m names.
Proof. inversion 1; eauto. Qed.
Lemma debuffs_later t s x sn m cs sn' m' : asks_debuffs t s x false sn m cs sn' m' -> cs = [] /\ sn' = sn /\ m' = m.
Proof. inversion 1; auto. Qed.

Section Run.
  Variables (tk tk' : trackers) (h : list block).
  Hypothesis HP : performed tk (flat_map bk_calls h) tk'.
  Hypothesis HN : NoDup (map label h).

  Lemma answered_split e k lab pre c post :
    tagged h = (pre ++ (lab, c) :: post)%list -> In lab (stages e k) ->
    (forall lab' t s m tg, In (lab', Grants t s m tg) pre -> ~ In lab' (stages e k)) ->
    answered tk h e k c.
  Proof.
    intros E Hl Hq. pose proof HP as P. rewrite <- tagged_calls, E, map_app in P. cbn [map snd] in P.
    apply performed_app_inv in P. destruct P as (tk1 & P1 & P2). inversion P2 as [|? ? tk2 ? ? P3 P4]; subst.
    exists lab, pre, post, tk1, tk2. auto.
  Qed.
  Lemma block_split h1 b h2 c1 c c2 :
    h = (h1 ++ b :: h2)%list -> bk_calls b = (c1 ++ c :: c2)%list ->
    tagged h = ((tagged h1 ++ map (pair (label b)) c1) ++ (label b, c) :: (map (pair (label b)) c2 ++ tagged h2))%list.
  Proof.
    intros -> Eb. rewrite tagged_app. cbn [tagged flat_map]. rewrite Eb, map_app. cbn [map]. rewrite <- !app_assoc. reflexivity.
  Qed.
  Lemma not_earlier h1 b h2 c : h = (h1 ++ b :: h2)%list -> ~ In (label b, c) (tagged h1).
  Proof.
    intros E H. apply in_tagged in H. destruct H as (b' & Hb & El & _). rewrite E, map_app in HN. cbn [map] in HN.
    apply NoDup_remove_2 in HN. apply HN. apply in_or_app. left. rewrite <- El. now apply in_map.
  Qed.

  (** In the only block of the hit. *)
  Lemma answered_at_once e k cs c1 c c2 :
    ev_secondary e = None -> In (mkBlock (ev_id e) None cs) h -> cs = (c1 ++ c :: c2)%list -> quiet c1 ->
    answered tk h e k c.
  Proof.
    intros Es Hb -> Q. apply in_split in Hb. destruct Hb as (h1 & h2 & E).
    eapply answered_split; [eapply block_split; [exact E | reflexivity] | unfold stages; rewrite Es; now left |].
    intros lab' t s m tg H. unfold stages. rewrite Es. intros [El|[]]. subst lab'.
    apply in_app_or in H. destruct H as [H|H].
    - exact (not_earlier _ _ _ _ E H).
    - apply in_map_iff in H. destruct H as (c' & Ec & H). injection Ec as ->. exact (Q _ _ _ _ H).
  Qed.
  (** In the snapshot block, or the later one. *)
  Lemma answered_snapshot e k app cs cs' c1 c c2 :
    ev_secondary e = Some app -> before h (mkBlock (ev_id e) None cs) (mkBlock (ev_id e) (Some k) cs') ->
    cs = (c1 ++ c :: c2)%list -> quiet cs -> answered tk h e k c.
  Proof.
    intros Es (h1 & hm & h2 & E) Ec Q.
    eapply answered_split; [eapply block_split; [exact E | exact Ec] | unfold stages; rewrite Es; now left |].
    intros lab' t s m tg H. unfold stages. rewrite Es. intros Hl.
    apply in_app_or in H. destruct H as [H|H].
    - destruct Hl as [El|[El|[]]]; subst lab'.
      + exact (not_earlier _ _ _ _ E H).
      + apply in_tagged in H. destruct H as (b' & Hb & El & _).
        pose proof HN as N. rewrite E, map_app in N. cbn [map] in N. rewrite map_app in N. cbn [map] in N.
        change (h1 ++ mkBlock (ev_id e) None cs :: hm ++ mkBlock (ev_id e) (Some k) cs' :: h2)%list
          with (h1 ++ (mkBlock (ev_id e) None cs :: hm ++ mkBlock (ev_id e) (Some k) cs' :: h2))%list in E.
        change (label (mkBlock (ev_id e) (Some k) cs')) with (ev_id e, Some k) in N.
        rewrite app_comm_cons, app_assoc in N. apply NoDup_remove_2 in N. apply N.
        apply in_or_app. left. apply in_or_app. left. rewrite <- El. now apply in_map.
    - apply in_map_iff in H. destruct H as (c' & Ec' & H). injection Ec' as <- ->.
      rewrite Ec in Q. exact (quiet_prefix _ _ Q _ _ _ _ H).
  Qed.
  Lemma answered_later e k app cs cs' c1 c c2 :
    ev_secondary e = Some app -> before h (mkBlock (ev_id e) None cs) (mkBlock (ev_id e) (Some k) cs') -> quiet cs ->
    cs' = (c1 ++ c :: c2)%list -> quiet c1 -> answered tk h e k c.
  Proof.
    intros Es (h1 & hm & h2 & E) Q0 Ec Q.
    assert (Hin : In (mkBlock (ev_id e) None cs) h) by (rewrite E; apply in_or_app; right; now left).
    rewrite app_comm_cons, app_assoc in E.
    eapply answered_split; [eapply block_split; [exact E | exact Ec] | unfold stages; rewrite Es; right; now left |].
    intros lab' t s m tg H. unfold stages. rewrite Es. intros [El|[El|[]]]; subst lab'.
    - assert (H' : In ((ev_id e, None), Grants t s m tg) (tagged h)).
      { rewrite E, tagged_app. apply in_or_app. apply in_app_or in H. destruct H as [H|H]; [now left|].
        apply in_map_iff in H. destruct H as (c' & Ec' & _). discriminate Ec'. }
      apply in_tagged in H'. destruct H' as (b & Hb & El & Hc).
      assert (b = mkBlock (ev_id e) None cs) as -> by (apply (label_unique h); assumption).
      exact (Q0 _ _ _ _ Hc).
    - apply in_app_or in H. destruct H as [H|H].
      + exact (not_earlier _ _ _ _ E H).
      + apply in_map_iff in H. destruct H as (c' & Ec' & H). injection Ec' as ->. exact (Q _ _ _ _ H).
  Qed.

  Lemma strikes_lands e m b (P : Z -> string -> modifier -> status_effects -> status_effects -> Prop) k l cs ms is :
    strikes e m b k l cs ms is ->
    (forall k' x d names pre post, k <= k' -> cs = (pre ++ AsksDebuffs (ev_primary e) (ev_skill e) x d names :: post)%list -> quiet pre ->
       P k' x (add_to_condition (placed e k' m) names) b d) ->
    lands e P (ev_primary e) k l is.
  Proof.
    induction 1 as [|k x l d names cs ms is js HD HS IH]; intro HPk; [constructor|].
    econstructor; [| exact HD |].
    - eapply (HPk k x d names []); [lia | reflexivity | apply quiet_nil].
    - apply IH. intros k' x' d' names' pre post Hk E Q.
      apply (HPk k' x' d' names' (AsksDebuffs (ev_primary e) (ev_skill e) x d names :: pre) post); [lia | now rewrite E |].
      apply quiet_cons; [discriminate | exact Q].
  Qed.

  Lemma at_once_lands e cs is :
    (exists f g, ev_snap e = (SFlag f, SFlag g)) ->
    ev_secondary e = None -> applies_at_once e cs is -> In (mkBlock (ev_id e) None cs) h ->
    lands e (described tk h e) (ev_primary e) 0 (ev_targets e) is.
  Proof.
    intros (f & g & Esn) Es HA Hb. destruct HA as [nr nc nb m1 m2 m3 b cs ms is mg t s E1 E2 E3 HS Hm].
    eapply strikes_lands; [exact HS|]. intros k x d nd pre post Hk Ecs Q.
    destruct (positional_cases _ _ _ E2) as (np & Enp).
    set (m := add_to_condition (placed e k m3) nd).
    assert (X1 : extends (ev_modifier e) m1) by (rewrite E1; apply extends_add).
    assert (X2 : extends (add_to_condition m1 nc) m2) by (rewrite Enp; apply extends_add).
    assert (X3 : extends m2 m).
    { eapply extends_trans; [|apply extends_add]. eapply extends_trans; [|apply extends_placed]. rewrite E3. apply extends_add. }
    assert (Mo : forall f0, moment e f0 k = t) by (intro f0; unfold moment; now rewrite Es).
    exists f, g, nb, nd, nr, nc, np, m1, (add_to_condition m1 nc). cbv zeta. rewrite !Mo. split; [exact Esn|].
    set (A := answered_at_once e k). fold s in Ecs.
    split; [eapply (A _ [_;_;_;_]); [exact Es | exact Hb | reflexivity | repeat (apply quiet_cons; [discriminate|]); apply quiet_nil]|].
    split.
    { eapply (A _ (Expires t :: AsksResources t s nr :: AddsResources t s m1 :: AsksCombo t s m1 nc :: AsksBuffs t s b nb :: pre));
        [exact Es | exact Hb | rewrite Ecs; cbn; rewrite <- app_assoc; reflexivity |].
      repeat (apply quiet_cons; [discriminate|]). exact Q. }
    split; [eapply (A _ [_]); [exact Es | exact Hb | reflexivity | repeat (apply quiet_cons; [discriminate|]); apply quiet_nil]|].
    split; [eapply (A _ [_;_;_]); [exact Es | exact Hb | reflexivity | repeat (apply quiet_cons; [discriminate|]); apply quiet_nil]|].
    split; [rewrite <- Enp; exact E2|]. split; [eapply extends_trans; [exact X1 | apply extends_add]|].
    split; [eapply extends_trans; [exact X2 | exact X3]|].
    split; [eapply extends_trans; [exact X1 |]; eapply extends_trans; [apply extends_add|]; eapply extends_trans; [exact X2 | exact X3]|].
    intro c. unfold m. rewrite add_names, placed_in, E3, add_names, Enp, add_names, add_names, E1, add_names by exact Hk. tauto.
  Qed.

  Lemma aims_lands e f sb m app (P : Z -> string -> modifier -> status_effects -> status_effects -> Prop) k l cs ps :
    aims e f sb m k l cs ps -> forall iss,
    Forall2 (fun p is => exists m' b d, deals e (spread e app (pe_k p)) (pe_target p) m' b d is /\ P (pe_k p) (pe_target p) m' b d) ps iss ->
    lands e P app k l (List.concat iss).
  Proof.
    induction 1 as [|k x l c1 sn m1 cs ps HA HS IH]; intros iss HF.
    - inversion HF; subst. constructor.
    - inversion HF as [|p is ps' iss' (m' & b & d & HD & HPk) HF']; subst. cbn [List.concat pe_k pe_target] in *.
      econstructor; [exact HPk | exact HD | apply IH, HF'].
  Qed.
  Lemma aims_in e f sb m k l cs ps p :
    aims e f sb m k l cs ps -> In p ps ->
    k <= pe_k p /\ pe_buffs p = sb /\
    exists c0 c1 c2, cs = (c0 ++ c1 ++ c2)%list
      /\ asks_debuffs (ev_primary e) (ev_skill e) (pe_target p) f (snd (ev_snap e)) (placed e (pe_k p) m) c1 (pe_debuffs p) (pe_modifier p).
  Proof.
    induction 1 as [|k x l c1 sn m1 cs ps HA HS IH]; intros HI; [destruct HI|]. destruct HI as [<-|HI].
    - cbn. split; [lia|]. split; [reflexivity|]. exists [], c1, cs. auto.
    - destruct (IH HI) as (Hk & Eb & c0' & c1' & c2' & -> & HA'). split; [lia|]. split; [exact Eb|].
      exists (c1 ++ c0')%list, c1', c2'. split; [now rewrite <- app_assoc | exact HA'].
  Qed.

  Lemma apart_lands e app cs ps iss :
    ev_secondary e = Some app -> snapshots e cs ps ->
    Forall2 (fun p is => exists cs', applies_later e (spread e app (pe_k p)) p cs' is
               /\ before h (mkBlock (ev_id e) None cs) (mkBlock (ev_id e) (Some (pe_k p)) cs')) ps iss ->
    lands e (described tk h e) app 0 (ev_targets e) (List.concat iss).
  Proof.
    intros Es HS HF. pose proof (quiet_snapshots _ _ _ HS) as Q0.
    inversion HS as [f g c1 c2 cd nc sb m1 m2 m3 ps' t s Esn A1 A2 E3 HA Ecs Eps]. subst ps'.
    eapply aims_lands; [exact HA|].
    assert (HI : forall p, In p ps -> In p ps) by auto. revert HI. revert HF. generalize ps at 1 2 4 as ps0.
    induction 1 as [|p is ps0 iss (cs' & HL & HB) HF IH]; intro Hin; constructor; [|apply IH; intros q Hq; apply Hin; now right].
    specialize (Hin p (or_introl eq_refl)). clear IH HF iss ps0.
    destruct (aims_in _ _ _ _ _ _ _ _ _ HA Hin) as (Hk & Eb & d0 & d1 & d2 & Ecd & A3).
    set (k := pe_k p) in *. set (x := pe_target p) in *.
    destruct HL as [l1 l2 l3 n1 n2 n3 b d is s0 B1 B2 B3 HD]. subst s0. fold s in B1, B2, B3. fold x in B3, HD.
    exists n3, b, d. split; [exact HD|].
    assert (Hcs : quiet cs) by exact Q0. clear Q0.
    pose (AS := fun c1 c c2 => answered_snapshot e k app cs _ c1 c c2 Es HB).
    pose (AL := fun c1 c c2 => answered_later e k app cs _ c1 c c2 Es HB Hcs).
    pose proof (quiet_buffs _ _ _ _ _ _ _ _ A1) as qa1. pose proof (quiet_resources _ _ _ _ _ _ A2) as qa2.
    pose proof (quiet_resources _ _ _ _ _ _ B1) as qb1. pose proof (quiet_buffs _ _ _ _ _ _ _ _ B2) as qb2.
    pose proof (quiet_debuffs _ _ _ _ _ _ _ _ _ B3) as qb3.
    set (T := spread e app k) in *.
    (* buffs *)
    assert (exists nb, answered tk h e k (AsksBuffs (moment e f k) s b nb)
             /\ (forall c, In c (sm_cond m1) <-> In c (sm_cond (ev_modifier e)) \/ f = true /\ names_condition nb c)
             /\ (forall c, In c (sm_cond n2) <-> In c (sm_cond n1) \/ f = false /\ names_condition nb c)
             /\ extends (ev_modifier e) m1 /\ extends n1 n2) as (nb & Hb1 & Hb2 & Hb3 & Xb1 & Xb2).
    { unfold moment. rewrite Es. rewrite Eb in B2. clear Eb. destruct f.
      - destruct (buffs_now _ _ _ _ _ _ _ A1) as (b0 & names & Z1 & Z2 & Z3). rewrite Z2 in B2. cbn [taken negb] in B2.
        destruct (buffs_later _ _ _ _ _ _ _ B2) as (Z4 & Z5 & Z6). injection Z5 as ->. subst.
        exists names. split; [eapply (AS [_]); [reflexivity | exact Hcs]|].
        split; [intro c; rewrite add_names; intuition|]. split; [intro c; intuition discriminate|]. split; [apply extends_add | apply extends_refl].
      - destruct (buffs_later _ _ _ _ _ _ _ A1) as (Z1 & Z2 & Z3). rewrite Z2 in B2. cbn [taken negb] in B2.
        destruct (buffs_now _ _ _ _ _ _ _ B2) as (b0 & names & Z4 & Z5 & Z6). injection Z5 as <-. subst.
        exists names. split; [eapply (AL (Expires T :: l1)); [reflexivity | apply quiet_cons; [discriminate | exact qb1]]|].
        split; [intro c; intuition discriminate|]. split; [intro c; rewrite add_names; intuition|]. split; [apply extends_refl | apply extends_add]. }
    (* resources *)
    assert (exists nr, answered tk h e k (AsksResources (moment e (sk_job_resources_snapshot s) k) s nr)
             /\ (forall c, In c (sm_cond m2) <-> In c (sm_cond m1) \/ sk_job_resources_snapshot s = true /\ names_condition nr c)
             /\ (forall c, In c (sm_cond n1) <-> In c (sm_cond (pe_modifier p)) \/ sk_job_resources_snapshot s = false /\ names_condition nr c)
             /\ extends m1 m2 /\ extends (pe_modifier p) n1) as (nr & Hr1 & Hr2 & Hr3 & Xr1 & Xr2).
    { unfold moment. rewrite Es. destruct (sk_job_resources_snapshot s); cbn [negb] in *; inversion A2; inversion B1; subst.
      - exists names. split; [eapply (AS (Expires t :: c1)); [reflexivity | exact Hcs]|].
        split; [intro c; rewrite add_names; intuition|]. split; [intro c; intuition discriminate|]. split; [apply extends_add | apply extends_refl].
      - exists names. split; [eapply (AL [_]); [reflexivity | apply quiet_cons; [discriminate | apply quiet_nil]]|].
        split; [intro c; intuition discriminate|]. split; [intro c; rewrite add_names; intuition|]. split; [apply extends_refl | apply extends_add]. }
    (* debuffs *)
    assert (exists nd, answered tk h e k (AsksDebuffs (moment e g k) s x d nd)
             /\ (forall c, In c (sm_cond (pe_modifier p)) <-> In c (sm_cond (placed e k m3)) \/ g = true /\ names_condition nd c)
             /\ (forall c, In c (sm_cond n3) <-> In c (sm_cond n2) \/ g = false /\ names_condition nd c)
             /\ extends (placed e k m3) (pe_modifier p) /\ extends n2 n3) as (nd & Hd1 & Hd2 & Hd3 & Xd1 & Xd2).
    { unfold moment. rewrite Es. rewrite Esn in A3. cbn [snd] in A3. fold s t in A3.
      destruct g.
      - destruct (debuffs_now _ _ _ _ _ _ _ _ A3) as (b0 & names & Z1 & Z2 & Z3). rewrite Z2 in B3. cbn [taken negb] in B3.
        destruct (debuffs_later _ _ _ _ _ _ _ _ B3) as (Z4 & Z5 & Z6). injection Z5 as ->. subst.
        exists names. split.
        { eapply (AS (Expires t :: c1 ++ c2 ++ AsksCombo t s m2 nc :: AddsResources t s m3 :: d0)%list); [|exact Hcs].
          cbn. rewrite <- !app_assoc. cbn. rewrite <- ?app_assoc. reflexivity. }
        rewrite Z3. split; [intro c; rewrite add_names; intuition|]. split; [intro c; intuition discriminate|]. split; [apply extends_add | apply extends_refl].
      - destruct (debuffs_later _ _ _ _ _ _ _ _ A3) as (Z1 & Z2 & Z3). rewrite Z2 in B3. cbn [taken negb] in B3.
        destruct (debuffs_now _ _ _ _ _ _ _ _ B3) as (b0 & names & Z4 & Z5 & Z6). injection Z5 as <-. subst.
        exists names. split.
        { eapply (AL (Expires T :: l1 ++ l2)%list); [cbn; rewrite <- !app_assoc; reflexivity|].
          apply quiet_cons; [discriminate|]. apply quiet_app; assumption. }
        rewrite Z3. split; [intro c; intuition discriminate|]. split; [intro c; rewrite add_names; intuition|]. split; [apply extends_refl | apply extends_add]. }
    destruct (positional_cases _ _ _ E3) as (np & Enp).
    assert (Xm : extends (ev_modifier e) (add_to_condition m2 nc)).
    { eapply extends_trans; [exact Xb1|]. eapply extends_trans; [exact Xr1 | apply extends_add]. }
    assert (Xn : extends m3 n3).
    { eapply extends_trans; [apply (extends_placed e k)|]. eapply extends_trans; [exact Xd1|]. eapply extends_trans; [exact Xr2|].
      eapply extends_trans; [exact Xb2 | exact Xd2]. }
    exists f, g, nb, nd, nr, nc, np, m2, (add_to_condition m2 nc). cbv zeta. split; [exact Esn|]. split; [exact Hb1|]. split; [exact Hd1|].
    split; [exact Hr1|].
    split; [eapply (AS (Expires t :: c1 ++ c2)%list); [subst cs; cbn; rewrite <- !app_assoc; reflexivity | exact Hcs]|].
    split; [rewrite <- Enp; exact E3|]. split; [exact Xm|].
    split; [rewrite Enp in Xn; eapply extends_trans; [apply extends_add | exact Xn]|].
    split; [eapply extends_trans; [exact Xm|]; rewrite Enp in Xn; eapply extends_trans; [apply extends_add | exact Xn]|].
    intro c. rewrite Hd3, Hb3, Hr3, Hd2, placed_in, Enp, add_names, add_names, Hr2, Hb2 by exact Hk.
    destruct f, g, (sk_job_resources_snapshot s); intuition discriminate.
  Qed.

  Lemma story_lands e is : fresh e -> story h e is ->
    exists t, effect_time e t /\ lands e (described tk h e) t 0 (ev_targets e) is.
  Proof.
    intros (Hf & _) [cs is0 H1 H2 H3 | app cs ps iss H1 H2 H3].
    - exists (ev_primary e). split; [right; auto|]. eapply at_once_lands; eassumption.
    - exists app. split; [now left|]. eapply apart_lands; eassumption.
  Qed.
End Run.

Lemma lands_impl e (P P' : Z -> string -> modifier -> status_effects -> status_effects -> Prop) t k l is :
  (forall k x m b d, P k x m b d -> P' k x m b d) -> lands e P t k l is -> lands e P' t k l is.
Proof. intro H. induction 1; econstructor; eauto. Qed.
