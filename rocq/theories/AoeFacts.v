(** * Facts about the AoE falloff tables built by Skill.__post_init__ (C09) *)

From Coq Require Import ZArith QArith List String Ascii Bool Lia Permutation.
From Coq Require Import ZifyBool ZifyNat.
From Verif Require Import Base BaseFacts Float Strings Types Lookup SpecCond CondFacts.
Import ListNotations.
Open Scope string_scope.

(** ** Selection is functional *)

Lemma app_cons_cases {A} (b1 : list A) : forall a1 b2 a2 x y,
  (b1 ++ x :: a1 = b2 ++ y :: a2)%list -> x = y /\ b1 = b2 /\ a1 = a2 \/ In y a1 \/ In x a2.
Proof.
  induction b1 as [|z b1 IH]; intros a1 b2 a2 x y E; destruct b2 as [|w b2]; cbn in E; injection E as -> E.
  - auto.
  - right. left. rewrite E. apply in_app_iff. right. left. reflexivity.
  - right. right. rewrite <- E. apply in_app_iff. right. left. reflexivity.
  - destruct (IH _ _ _ _ _ E) as [(H1 & H2 & H3)|H]; [left; subst; auto | right; exact H].
Qed.

Lemma best_key_fun keys wc k1 k2 : best_key keys wc k1 -> best_key keys wc k2 -> k1 = k2.
Proof.
  intros B1 B2. pose proof (best_key_in _ _ _ B1) as I1. pose proof (best_key_in _ _ _ B2) as I2.
  destruct B1 as (b1 & a1 & E1 & J1 & M1 & L1), B2 as (b2 & a2 & E2 & J2 & M2 & L2).
  rewrite E1 in E2. apply app_cons_cases in E2 as [(H & _)|[H|H]]; [exact H| |].
  - specialize (L1 k2 H J2). specialize (M2 k1 I1 J1). lia.
  - specialize (L2 k1 H J1). specialize (M1 k2 I2 J2). lia.
Qed.

Lemma clookup_best {V} (d : list (cond * V)) wc k v :
  NoDup wc -> distinct_sets (map fst d) -> best_key (map fst d) wc k -> In (k, v) d -> clookup d wc = Ok v.
Proof.
  intros N D B I. destruct (clookup_spec d wc N D) as [(k' & v' & I' & B' & E)|(F & _)].
  - pose proof (best_key_fun _ _ _ _ B B') as <-. rewrite E. f_equal.
    pose proof (in_cget k v d D I). pose proof (in_cget k v' d D I'). congruence.
  - exfalso. apply (F k); [apply in_map_iff; exists (k, v); auto|].
    destruct B as (_ & _ & _ & J & _). exact J.
Qed.

(** ** Target names *)

Lemma split_comma_app a b : split_comma (a ++ "," ++ b) = (split_comma a ++ split_comma b)%list.
Proof.
  induction a as [|c a IH].
  - cbn. reflexivity.
  - change (String c a ++ "," ++ b) with (String c (a ++ "," ++ b)). cbn [split_comma].
    destruct (Ascii.eqb c comma).
    + rewrite IH. reflexivity.
    + rewrite IH. destruct (split_comma a) as [|p ps] eqn:E; [destruct (split_comma_ne _ E)|]. reflexivity.
Qed.

Definition tname (n : Z) : string := "Target " ++ string_of_Z n.

Lemma set_of_app l x : set_of (l ++ [x])%list = sadd x (set_of l).
Proof. unfold set_of. rewrite fold_left_app. reflexivity. Qed.

Lemma target_key_canonical k n :
  In n dropoff_targets -> canonicalize (target_key k n) = sadd (tname n) (canonicalize k).
Proof.
  intros H. destruct k as [|c k].
  - cbn in H. repeat (destruct H as [<-|H]; [vm_compute; reflexivity|]). destruct H.
  - unfold target_key.
    assert (E : split_comma (String c k ++ ", Target " ++ string_of_Z n)
                = (split_comma (String c k) ++ [(" " ++ tname n)%string])%list).
    { change (String c k ++ ", Target " ++ string_of_Z n)
        with (String c k ++ "," ++ (" " ++ tname n)).
      rewrite split_comma_app. f_equal.
      cbn in H. repeat (destruct H as [<-|H]; [vm_compute; reflexivity|]). destruct H. }
    assert (E' : strip (" " ++ tname n) = tname n).
    { cbn in H. repeat (destruct H as [<-|H]; [vm_compute; reflexivity|]). destruct H. }
    transitivity (set_of (map strip (split_comma (String c k ++ ", Target " ++ string_of_Z n)))).
    { reflexivity. }
    rewrite E, map_app. cbn [map]. rewrite E', set_of_app. reflexivity.
Qed.

Lemma string_length_app a b : String.length (a ++ b) = (String.length a + String.length b)%nat.
Proof. induction a; cbn; auto. Qed.

Lemma digits_rev_pos f n : (1 <= String.length (digits_rev (S f) n))%nat.
Proof.
  cbn [digits_rev]. destruct (N.div n 10); [cbn; lia|]. rewrite string_length_app. cbn. lia.
Qed.
Lemma string_of_N_long n : (10 <= n)%N -> (2 <= String.length (string_of_N n))%nat.
Proof.
  intros H. unfold string_of_N. cbn [digits_rev].
  assert (D : N.div n 10 <> 0%N). { intros E. apply N.div_small_iff in E; lia. }
  destruct (N.div n 10) as [|p] eqn:E; [congruence|].
  rewrite string_length_app. cbn [String.length].
  assert (L : (3 <= N.log2 n)%N). { change 3%N with (N.log2 10). apply N.log2_le_mono. exact H. }
  destruct (N.to_nat (N.log2 n)) as [|f] eqn:F; [lia|].
  pose proof (digits_rev_pos f (N.pos p)). lia.
Qed.
Lemma tname_out n m : (n = 1 \/ 10 <= n)%Z -> In m dropoff_targets -> tname n <> tname m.
Proof.
  intros H I E. assert (L : String.length (tname m) = 8%nat).
  { cbn in I. repeat (destruct I as [<-|I]; [reflexivity|]). destruct I. }
  destruct H as [->|H].
  - cbn in I. repeat (destruct I as [<-|I]; [discriminate E|]). destruct I.
  - rewrite <- E in L. unfold tname in L. rewrite string_length_app in L. cbn [String.length] in L.
    destruct n as [|p|p]; try lia. cbn [string_of_Z] in L.
    pose proof (string_of_N_long (Z.to_N (Z.pos p)) ltac:(lia)). lia.
Qed.
Lemma tname_inj n m : In n dropoff_targets -> In m dropoff_targets -> tname n = tname m -> n = m.
Proof.
  intros H I E. cbn in H, I.
  repeat (destruct H as [<-|H]; [repeat (destruct I as [<-|I]; [try reflexivity; discriminate E|]); destruct I|]).
  destruct H.
Qed.
(** ** The table after falloff processing *)

Definition scaled (d : Q) (sp : damage_spec) : damage_spec :=
  set_potency sp (fmul (fsub 1 d) (potency sp)).

Definition falloff (d : Q) (kv : string * option damage_spec) : dict (option damage_spec) :=
  map (fun n => (target_key (fst kv) n, option_map (scaled d) (snd kv))) dropoff_targets.

Lemma dset_fresh {V} k (v : V) d : ~ In k (dkeys d) -> dset k v d = (d ++ [(k, v)])%list.
Proof.
  induction d as [|[k' v'] d IH]; cbn; [reflexivity|]. intros H.
  destruct (String.eqb_spec k k') as [->|N]; [tauto|]. rewrite IH by tauto. reflexivity.
Qed.
Lemma dget_app {V} k (d d' : dict V) v : dget k d = Some v -> dget k (d ++ d')%list = Some v.
Proof.
  induction d as [|[k' v'] d IH]; cbn; [discriminate|]. destruct (String.eqb k k'); auto.
Qed.

Lemma dropoff_inner d key sp ns : forall acc,
  dget key acc = Some (Some sp) -> NoDup (dkeys acc ++ map (target_key key) ns)%list ->
  foldM (fun acc n =>
    match dget key acc with
    | None => Err KeyError
    | Some None => Err AttributeError
    | Some (Some sp) =>
        Ok (dset (target_key key n) (Some (set_potency sp (fmul (fsub 1 d) (potency sp)))) acc)
    end) ns acc
  = Ok (acc ++ map (fun n => (target_key key n, Some (scaled d sp))) ns)%list.
Proof.
  induction ns as [|n ns IH]; intros acc G N; cbn [foldM map].
  - rewrite app_nil_r. reflexivity.
  - rewrite G. cbn [bind].
    assert (F : ~ In (target_key key n) (dkeys acc)).
    { intros I. cbn [map] in N. apply NoDup_remove_2 in N. apply N, in_app_iff. auto. }
    rewrite dset_fresh by exact F. rewrite IH.
    + rewrite <- app_assoc. reflexivity.
    + apply dget_app. exact G.
    + unfold dkeys in *. rewrite map_app. cbn [map fst]. rewrite <- app_assoc. exact N.
Qed.

Lemma dkeys_app {V} (a b : dict V) : dkeys (a ++ b)%list = (dkeys a ++ dkeys b)%list.
Proof. unfold dkeys. apply map_app. Qed.

Lemma NoDup_app_l {A} (a b : list A) : NoDup (a ++ b)%list -> NoDup a.
Proof.
  induction a as [|x a IH]; cbn; [constructor|]. intros N. inversion N; subst.
  constructor; [rewrite in_app_iff in *; tauto | auto].
Qed.

Lemma process_aoe_dropoff_eq tbl d :
  (forall k v, In (k, v) tbl -> v <> None) ->
  NoDup (dkeys (tbl ++ flat_map (falloff d) tbl)%list) ->
  process_aoe_dropoff tbl d = Ok (tbl ++ flat_map (falloff d) tbl)%list.
Proof.
  intros S N. unfold process_aoe_dropoff.
  cut (forall rest dn, tbl = (dn ++ rest)%list ->
        foldM (dropoff_entries d) (dkeys rest) (tbl ++ flat_map (falloff d) dn)%list
        = Ok (tbl ++ flat_map (falloff d) tbl)%list).
  { intros H. specialize (H tbl [] eq_refl). cbn [flat_map] in H. rewrite app_nil_r in H. exact H. }
  induction rest as [|[k v] rest IH]; intros dn E.
  - rewrite app_nil_r in E. subst dn. reflexivity.
  - change (dkeys ((k, v) :: rest)) with (k :: dkeys rest). cbn [foldM].
    destruct v as [sp|]; [|exfalso; apply (S k None); [rewrite E; apply in_app_iff; right; left|]; reflexivity].
    assert (N' : NoDup (dkeys ((tbl ++ flat_map (falloff d) dn) ++ falloff d (k, Some sp))%list)).
    { rewrite E in N at 2. rewrite flat_map_app in N. cbn [flat_map] in N.
      rewrite !app_assoc, dkeys_app in N. apply NoDup_app_l in N. exact N. }
    assert (Nt : NoDup (dkeys tbl)). { rewrite dkeys_app in N. apply NoDup_app_l in N. exact N. }
    unfold dropoff_entries. rewrite (dropoff_inner d k sp).
    + cbn [bind]. rewrite <- app_assoc.
      change (map (fun n => (target_key k n, Some (scaled d sp))) dropoff_targets) with (falloff d (k, Some sp)).
      replace (flat_map (falloff d) dn ++ falloff d (k, Some sp))%list
        with (flat_map (falloff d) (dn ++ [(k, Some sp)])%list).
      2:{ rewrite flat_map_app. cbn [flat_map]. rewrite app_nil_r. reflexivity. }
      apply IH. rewrite <- app_assoc. exact E.
    + apply dget_app. apply in_dget; [exact Nt|]. rewrite E. apply in_app_iff. right. left. reflexivity.
    + rewrite dkeys_app in N'. unfold falloff in N'. unfold dkeys in *. rewrite map_map in N'. exact N'.
Qed.

Lemma canonicalize_dict_eq {V} (d : dict V) :
  distinct_sets (map canonicalize (dkeys d)) ->
  canonicalize_dict d = map (fun kv => (canonicalize (fst kv), snd kv)) d.
Proof.
  intros D. unfold canonicalize_dict.
  cut (forall (rest : dict V) (acc : list (cond * V)),
        distinct_sets (map canonicalize (dkeys rest)) ->
        (forall k k', In k (map fst acc) -> In k' (dkeys rest) -> ~ same_set (canonicalize k') k) ->
        fold_left (fun acc kv => cset (canonicalize (fst kv)) (snd kv) acc) rest acc
        = (acc ++ map (fun kv => (canonicalize (fst kv), snd kv)) rest)%list).
  { intros H. apply (H d []); [exact D | intros k k' []]. }
  clear D d. induction rest as [|[k v] rest IH]; intros acc D F; cbn [fold_left map].
  - rewrite app_nil_r. reflexivity.
  - cbn [fst snd].
    assert (E : cset (canonicalize k) v acc = (acc ++ [(canonicalize k, v)])%list).
    { assert (F' : forall k', In k' (map fst acc) -> ~ same_set (canonicalize k) k').
      { intros k' Hk'. apply F; [exact Hk' | left; reflexivity]. }
      clear - F'. induction acc as [|[k' v'] acc IH]; cbn; [reflexivity|].
      destruct (cond_eqb (canonicalize k) k') eqn:E.
      - apply cond_eqb_spec in E. destruct (F' k' (or_introl eq_refl) E).
      - rewrite IH; [reflexivity|]. intros x Hx. apply F'. right. exact Hx. }
    rewrite E. cbn in D. inversion D as [|? ? N1 N2 D']; subst. rewrite IH.
    + rewrite <- app_assoc. reflexivity.
    + exact D'.
    + intros x y Hx Hy. rewrite map_app in Hx. apply in_app_iff in Hx as [Hx|[<-|[]]].
      * apply F; [exact Hx | right; exact Hy].
      * cbn [fst]. intros S. apply (N2 (canonicalize y)); [apply in_map; exact Hy | apply same_set_sym; exact S].
Qed.

(** ** Distinctness of the extended table *)

Lemma distinct_sets_app a b :
  distinct_sets (a ++ b)%list <->
  distinct_sets a /\ distinct_sets b /\ forall x y, In x a -> In y b -> ~ same_set x y.
Proof.
  induction a as [|k a IH]; cbn.
  - split; [intros H; repeat split; [constructor | exact H | intros x y []] | tauto].
  - split.
    + intros H. inversion H as [|? ? N1 N2 D]; subst. apply IH in D as (D1 & D2 & D3). repeat split.
      * constructor; [exact N1 | intros k' Hk'; apply N2, in_app_iff; auto | exact D1].
      * exact D2.
      * intros x y [<-|Hx] Hy; [apply N2, in_app_iff; auto | auto].
    + intros (D1 & D2 & D3). inversion D1 as [|? ? N1 N2 D]; subst. constructor; [exact N1| |].
      * intros k' Hk'. apply in_app_iff in Hk' as [Hk'|Hk']; [auto | apply D3; auto].
      * apply IH. repeat split; auto.
Qed.

Lemma distinct_nodup l : distinct_sets (map canonicalize l) -> NoDup l.
Proof.
  induction l as [|k l IH]; intros D; [constructor|]. inversion D as [|? ? N1 N2 D']; subst.
  constructor; [|auto]. intros I. apply (N2 (canonicalize k)); [apply in_map; exact I | intros x; tauto].
Qed.

Definition no_targets (c : list string) : Prop := forall n, In n dropoff_targets -> ~ In (tname n) c.

Section Aoe.
  Variable tbl : dict (option damage_spec).
  Variable d : Q.
  Hypothesis D0 : distinct_sets (map canonicalize (dkeys tbl)).
  Hypothesis T0 : forall k, In k (dkeys tbl) -> no_targets (canonicalize k).

  Lemma falloff_key_in kv k : In k (dkeys (falloff d kv)) ->
    exists n, In n dropoff_targets /\ k = target_key (fst kv) n.
  Proof.
    unfold falloff, dkeys. rewrite map_map. cbn [fst]. intros H. apply in_map_iff in H as (n & <- & H). eauto.
  Qed.

  Lemma ext_key_in k : In k (dkeys (flat_map (falloff d) tbl)) ->
    exists k0 n, In k0 (dkeys tbl) /\ In n dropoff_targets /\ k = target_key k0 n.
  Proof.
    unfold dkeys. intros H. apply in_map_iff in H as (kv' & <- & H). apply in_flat_map in H as (kv & H & H').
    destruct (falloff_key_in kv (fst kv')) as (n & I & E); [apply in_map; exact H'|].
    exists (fst kv), n. split; [apply in_map; exact H | auto].
  Qed.

  Lemma sadd_fresh_same x y a b :
    ~ In x a -> ~ In y b -> ~ In x b -> ~ In y a -> same_set (sadd x a) (sadd y b) -> x = y /\ same_set a b.
  Proof.
    intros Hxa Hyb Hxb Hya S.
    assert (x = y). { specialize (S x). rewrite !sadd_in in S. destruct S as [S _]. destruct S; [auto| |]; tauto || congruence. }
    subst y. split; [reflexivity|]. intros z. specialize (S z). rewrite !sadd_in in S.
    destruct (String.eqb_spec z x) as [->|N]; tauto.
  Qed.

  Lemma ext_distinct_gen l :
    distinct_sets (map canonicalize (dkeys l)) -> (forall k, In k (dkeys l) -> no_targets (canonicalize k)) ->
    distinct_sets (map canonicalize (dkeys (flat_map (falloff d) l))).
  Proof.
    induction l as [|kv l IH]; intros Dl Tl; [constructor|].
    cbn [flat_map]. rewrite dkeys_app, map_app. inversion Dl as [|? ? N1 N2 D']; subst.
    apply distinct_sets_app. split; [|split].
    - assert (Tk : no_targets (canonicalize (fst kv))) by (apply Tl; left; reflexivity).
      unfold falloff, dkeys. rewrite !map_map. cbn [fst].
      assert (G : forall ns, NoDup ns -> incl ns dropoff_targets ->
                distinct_sets (map (fun n => canonicalize (target_key (fst kv) n)) ns)).
      { induction ns as [|n ns IHn]; intros Nn In_; [constructor|]. inversion Nn; subst.
        cbn [map]. constructor.
        - apply canonicalize_nodup.
        - intros k' Hk'. apply in_map_iff in Hk' as (m & <- & Hm).
          rewrite !target_key_canonical by (apply In_; cbn; auto).
          intros S. apply sadd_fresh_same in S as [S _]; try (apply Tk, In_; cbn; auto).
          apply tname_inj in S; [subst; contradiction | |]; apply In_; cbn; auto.
        - apply IHn; [assumption | intros z Hz; apply In_; right; exact Hz]. }
      apply G; [|apply incl_refl]. unfold dropoff_targets. repeat constructor; cbn; intuition congruence.
    - apply IH; [exact D' | intros k Hk; apply Tl; right; exact Hk].
    - intros x y Hx Hy. apply in_map_iff in Hx as (kx & <- & Hx). apply in_map_iff in Hy as (ky & <- & Hy).
      apply falloff_key_in in Hx as (n & Hn & ->).
      unfold dkeys in Hy. apply in_map_iff in Hy as (kv' & <- & Hy). apply in_flat_map in Hy as (kv2 & H2 & H2').
      destruct (falloff_key_in kv2 (fst kv')) as (m & Hm & E); [apply in_map; exact H2'|]. rewrite E.
      rewrite !target_key_canonical by assumption.
      assert (T1 : no_targets (canonicalize (fst kv))) by (apply Tl; left; reflexivity).
      assert (T2 : no_targets (canonicalize (fst kv2))) by (apply Tl; right; apply in_map; exact H2).
      intros S. apply sadd_fresh_same in S as [_ S]; try (apply T1; assumption); try (apply T2; assumption).
      apply (N2 (canonicalize (fst kv2))); [apply in_map, in_map; exact H2 | exact S].
  Qed.

  Lemma all_distinct : distinct_sets (map canonicalize (dkeys (tbl ++ flat_map (falloff d) tbl)%list)).
  Proof.
    rewrite dkeys_app, map_app. apply distinct_sets_app. split; [exact D0|]. split.
    - apply ext_distinct_gen; assumption.
    - intros x y Hx Hy. apply in_map_iff in Hx as (kx & <- & Hx). apply in_map_iff in Hy as (ky & <- & Hy).
      apply ext_key_in in Hy as (k0 & n & H0 & Hn & ->). rewrite target_key_canonical by exact Hn.
      intros S. apply (T0 kx Hx n Hn). apply S, sadd_in. auto.
  Qed.

  Definition canon_entry (kv : string * option damage_spec) : cond * option damage_spec :=
    (canonicalize (fst kv), snd kv).

  Lemma post_init_eq :
    (forall k v, In (k, v) tbl -> v <> None) ->
    post_init_damage (RDict tbl) (Some d)
    = Ok (CDict (map canon_entry tbl ++ map canon_entry (flat_map (falloff d) tbl))%list).
  Proof.
    intros S. cbn [post_init_damage].
    rewrite process_aoe_dropoff_eq; [|exact S | apply distinct_nodup, all_distinct].
    cbn [bind]. rewrite canonicalize_dict_eq by exact all_distinct. rewrite map_app. reflexivity.
  Qed.

  Lemma keys_eq l : map fst (map canon_entry l) = map canonicalize (dkeys l).
  Proof. unfold dkeys. rewrite !map_map. reflexivity. Qed.

  Notation T := (map canon_entry tbl ++ map canon_entry (flat_map (falloff d) tbl))%list.

  Lemma T_keys : map fst T = (map canonicalize (dkeys tbl) ++ map canonicalize (dkeys (flat_map (falloff d) tbl)))%list.
  Proof. rewrite map_app, !keys_eq. reflexivity. Qed.
  Lemma T_distinct : distinct_sets (map fst T).
  Proof. rewrite T_keys, <- map_app, <- dkeys_app. apply all_distinct. Qed.

  Lemma table_match wc : NoDup wc -> In "" (dkeys tbl) ->
    exists k v, In (k, v) tbl /\ best_key (map canonicalize (dkeys tbl)) wc (canonicalize k)
      /\ clookup (map canon_entry tbl) wc = Ok v
      /\ exists l1 l2, tbl = (l1 ++ (k, v) :: l2)%list
           /\ forall k', In k' (dkeys l2) -> incl (canonicalize k') wc ->
                (List.length (canonicalize k') < List.length (canonicalize k))%nat.
  Proof.
    intros N E. destruct (clookup_spec (map canon_entry tbl) wc N) as [(kc & v & I & B & L)|(F & _)].
    - rewrite keys_eq. exact D0.
    - apply in_map_iff in I as ([k v'] & Ec & I). injection Ec as Ek Ev. subst v' kc.
      rewrite keys_eq in B. exists k, v. split; [exact I|]. split; [exact B|]. split; [exact L|].
      destruct (in_split _ _ I) as (l1 & l2 & S). exists l1, l2. split; [exact S|].
      intros k' Hk' Ik'. destruct B as (b & a & Eb & J & _ & La).
      rewrite S in Eb. unfold dkeys in Eb. rewrite !map_app in Eb. cbn [map fst] in Eb.
      assert (Ea : map canonicalize (map fst l2) = a).
      { apply app_cons_cases in Eb as [(_ & _ & H)|[H|H]]; [exact H| |]; exfalso.
        - revert H. clear - D0 S. rewrite S in D0. unfold dkeys in D0. rewrite !map_app in D0. cbn [map fst] in D0.
          apply distinct_sets_app in D0 as (_ & D1 & _). inversion D1 as [|? ? _ N2 _]; subst.
          intros H. apply (N2 _ H). intros z; tauto.
        - specialize (La _ H J). lia. }
      apply La; [rewrite <- Ea; apply in_map; exact Hk' | exact Ik'].
    - exfalso. apply (F []); [|intros x []]. rewrite keys_eq. apply (in_map canonicalize _ "" E).
  Qed.

  (** Without a falloff target among the active conditions nothing changes. *)
  Lemma lookup_plain wc wc' : NoDup wc -> NoDup wc' -> In "" (dkeys tbl) -> no_targets wc' ->
    (forall k, In k (dkeys tbl) -> (incl (canonicalize k) wc' <-> incl (canonicalize k) wc)) ->
    clookup T wc' = clookup (map canon_entry tbl) wc.
  Proof.
    intros N N' E NT EQ. destruct (table_match wc N E) as (k & v & I & B & -> & _).
    apply clookup_best with (canonicalize k); [exact N' | apply T_distinct | |].
    - rewrite T_keys. destruct B as (b & a & Eb & J & M & La).
      assert (Hb : forall c, In c (map canonicalize (dkeys tbl)) -> (incl c wc' <-> incl c wc)).
      { intros c Hc. apply in_map_iff in Hc as (k' & <- & Hk'). apply EQ. exact Hk'. }
      assert (X : forall c, In c (map canonicalize (dkeys (flat_map (falloff d) tbl))) -> ~ incl c wc').
      { intros c Hc. apply in_map_iff in Hc as (k' & <- & Hk'). apply ext_key_in in Hk' as (k0 & n & H0 & Hn & ->).
        rewrite target_key_canonical by exact Hn. intros Ic. apply (NT n Hn). apply Ic, sadd_in. auto. }
      exists b, (a ++ map canonicalize (dkeys (flat_map (falloff d) tbl)))%list. split; [|split; [|split]].
      + rewrite Eb, <- app_assoc. reflexivity.
      + apply EQ; [|exact J]. apply (in_map fst) in I. exact I.
      + intros c Hc Ic. apply in_app_iff in Hc as [Hc|Hc]; [|destruct (X c Hc Ic)]. apply M; [exact Hc | apply Hb; auto].
      + intros c Hc Ic. apply in_app_iff in Hc as [Hc|Hc]; [|destruct (X c Hc Ic)]. apply La; [exact Hc|].
        apply Hb; [rewrite Eb; apply in_app_iff; right; right; exact Hc | exact Ic].
    - apply in_app_iff. left. apply (in_map canon_entry _ (k, v) I).
  Qed.

  Lemma sadd_length x a : ~ In x a -> List.length (sadd x a) = S (List.length a).
  Proof.
    intros H. unfold sadd. destruct (smem x a) eqn:E; [apply smem_spec in E; contradiction|].
    rewrite app_length. cbn. lia.
  Qed.

  (** With target [n] active, the scaled entry of the key selected without it. *)
  Lemma lookup_target wc wc' n : NoDup wc -> NoDup wc' -> In "" (dkeys tbl) -> no_targets wc ->
    In n dropoff_targets -> same_set wc' (tname n :: wc) ->
    exists v, clookup (map canon_entry tbl) wc = Ok v /\ clookup T wc' = Ok (option_map (scaled d) v).
  Proof.
    intros N N' E NT Hn S. destruct (table_match wc N E) as (k & v & I & B & L & l1 & l2 & Et & Lt).
    exists v. split; [exact L|].
    destruct B as (_ & _ & _ & J & M & _).
    assert (Tk : forall k0, In k0 (dkeys tbl) -> no_targets (canonicalize k0)) by exact T0.
    assert (Hk : In k (dkeys tbl)) by (apply (in_map fst) in I; exact I).
    assert (Drop : forall c, no_targets c -> incl c wc' -> incl c wc).
    { intros c Nc Ic x Hx. specialize (Ic x Hx). apply S in Ic as [<-|Ic]; [destruct (Nc n Hn Hx) | exact Ic]. }
    assert (Ext : forall k0 m, In k0 (dkeys tbl) -> In m dropoff_targets ->
              incl (canonicalize (target_key k0 m)) wc' ->
              m = n /\ incl (canonicalize k0) wc
              /\ List.length (canonicalize (target_key k0 m)) = Datatypes.S (List.length (canonicalize k0))).
    { intros k0 m H0 Hm Ic. rewrite target_key_canonical in Ic |- * by exact Hm.
      assert (m = n). { assert (In (tname m) wc') as H by (apply Ic, sadd_in; auto).
        apply S in H as [H|H]; [symmetry; apply tname_inj; auto | destruct (NT m Hm H)]. }
      split; [assumption|]. split; [|apply sadd_length, Tk; auto].
      apply Drop; [apply Tk; exact H0|]. intros x Hx. apply Ic, sadd_in. auto. }
    assert (Lk : List.length (canonicalize (target_key k n)) = Datatypes.S (List.length (canonicalize k))).
    { rewrite target_key_canonical by exact Hn. apply sadd_length, Tk; auto. }
    apply clookup_best with (canonicalize (target_key k n)); [exact N' | apply T_distinct | |].
    - rewrite T_keys.
      destruct (in_split _ _ Hn) as (n1 & n2 & En).
      assert (Sp : map canonicalize (dkeys (flat_map (falloff d) tbl))
        = (map canonicalize (dkeys (flat_map (falloff d) l1)) ++ map canonicalize (map (target_key k) n1)
           ++ canonicalize (target_key k n) :: map canonicalize (map (target_key k) n2)
           ++ map canonicalize (dkeys (flat_map (falloff d) l2)))%list).
      { rewrite Et at 1. rewrite flat_map_app. cbn [flat_map]. rewrite !dkeys_app, !map_app. f_equal.
        unfold falloff at 1. unfold dkeys at 1. rewrite En, map_map. cbn [fst].
        rewrite !map_app. cbn [map]. rewrite !map_map. cbn [fst]. rewrite <- !app_assoc. reflexivity. }
      rewrite Sp.
      exists (map canonicalize (dkeys tbl) ++ map canonicalize (dkeys (flat_map (falloff d) l1))
              ++ map canonicalize (map (target_key k) n1))%list,
        (map canonicalize (map (target_key k) n2) ++ map canonicalize (dkeys (flat_map (falloff d) l2)))%list.
      split; [rewrite <- !app_assoc; reflexivity|].
      split; [|split].
      + rewrite target_key_canonical by exact Hn. intros x Hx. apply S. apply sadd_in in Hx as [Hx|Hx]; cbn; auto.
      + rewrite <- Sp. intros c Hc Ic. rewrite Lk. apply in_app_iff in Hc as [Hc|Hc].
        * apply in_map_iff in Hc as (k0 & <- & H0).
          assert (List.length (canonicalize k0) <= List.length (canonicalize k))%nat; [|lia].
          apply M; [apply in_map; exact H0 | apply Drop; [apply Tk; exact H0 | exact Ic]].
        * apply in_map_iff in Hc as (k' & <- & H'). apply ext_key_in in H' as (k0 & m & H0 & Hm & ->).
          destruct (Ext k0 m H0 Hm Ic) as (_ & I0 & ->).
          assert (List.length (canonicalize k0) <= List.length (canonicalize k))%nat; [|lia].
          apply M; [apply in_map; exact H0 | exact I0].
      + intros c Hc Ic. rewrite Lk. apply in_app_iff in Hc as [Hc|Hc].
        * exfalso. apply in_map_iff in Hc as (k' & <- & H'). apply in_map_iff in H' as (m & <- & Hm).
          assert (Hm' : In m dropoff_targets) by (rewrite En; apply in_app_iff; right; right; exact Hm).
          destruct (Ext k m Hk Hm' Ic) as (-> & _).
          assert (ND : NoDup dropoff_targets) by (unfold dropoff_targets; repeat constructor; cbn; intuition congruence).
          rewrite En in ND. apply NoDup_remove_2 in ND. apply ND, in_app_iff. auto.
        * apply in_map_iff in Hc as (k' & <- & H'). unfold dkeys in H'.
          apply in_map_iff in H' as (kv' & <- & H'). apply in_flat_map in H' as (kv & H2 & H2').
          destruct (falloff_key_in kv (fst kv')) as (m & Hm & Em); [apply in_map; exact H2'|].
          rewrite Em in Ic |- *.
          assert (H0 : In (fst kv) (dkeys tbl)).
          { apply in_map. rewrite Et. apply in_app_iff. right. right. exact H2. }
          destruct (Ext (fst kv) m H0 Hm Ic) as (_ & I0 & ->).
          assert (List.length (canonicalize (fst kv)) < List.length (canonicalize k))%nat; [|lia].
          apply Lt; [apply in_map; exact H2 | exact I0].
    - apply in_app_iff. right. apply in_map_iff. exists (target_key k n, option_map (scaled d) v). split; [reflexivity|].
      apply in_flat_map. exists (k, v). split; [exact I|]. unfold falloff. apply in_map_iff. exists n. auto.
  Qed.
End Aoe.

(** ** Target conditions on modifiers *)

Definition digit (c : ascii) : Prop := (48 <= nat_of_ascii c <= 57)%nat.

Lemma digits_rev_digits f : forall n c, In c (chars (digits_rev f n)) -> digit c.
Proof.
  induction f as [|f IH]; intros n c H; [destruct H|].
  cbn [digits_rev] in H.
  assert (L : forall c, In c (chars (String (ascii_of_N (48 + N.modulo n 10)) "")) -> digit c).
  { intros c' [<-|[]]. unfold digit, nat_of_ascii.
    assert (N.modulo n 10 < 10)%N by (apply N.mod_lt; lia).
    rewrite N_ascii_embedding by lia. lia. }
  destruct (N.div n 10); [auto|]. rewrite chars_app in H. apply in_app_iff in H as [H|H]; eauto.
Qed.

Lemma chars_last s c s' : s = s' ++ String c "" -> In c (chars s).
Proof. intros ->. rewrite chars_app. apply in_app_iff. right. left. reflexivity. Qed.

Lemma tname_plain n : (0 <= n)%Z -> plain_name (tname n).
Proof.
  intros H. assert (Dg : forall c, In c (chars (string_of_Z n)) -> digit c).
  { intros c. destruct n; try lia; unfold string_of_Z, string_of_N; apply digits_rev_digits. }
  assert (Ne : exists c s', string_of_Z n = s' ++ String c "").
  { assert (L : (1 <= String.length (string_of_Z n))%nat) by (destruct n; try lia; apply digits_rev_pos).
    revert L. generalize (string_of_Z n). intros s. induction s as [|a s IH]; cbn; intros L; [lia|].
    destruct s as [|b s]; [exists a, ""; reflexivity|].
    destruct IH as (c & s' & E); [cbn; lia|]. exists c, (String a s'). rewrite E. reflexivity. }
  unfold plain_name, tname. split; [|split].
  - unfold comma_free. rewrite chars_app. rewrite in_app_iff. intros [I|I].
    + cbn in I. repeat (destruct I as [I|I]; [discriminate I|]). destruct I.
    + apply Dg in I. unfold digit in I. cbn in I. lia.
  - split.
    + intros c s' E. injection E as <- _. unfold space. cbn. intuition discriminate.
    + intros c s' E. destruct Ne as (c' & s'' & En). rewrite En in E, Dg.
      assert (E' : ("Target " ++ s'') ++ String c' "" = s' ++ String c "") by (rewrite sapp_assoc; exact E).
      apply app_last_char in E' as [_ <-].
      assert (Dc : digit c') by (apply Dg; rewrite chars_app; apply in_app_iff; right; left; reflexivity).
      unfold digit in Dc. unfold space. cbn [In]. lia.
  - discriminate.
Qed.

Lemma add_target_in m n x : (0 <= n)%Z ->
  In x (sm_cond (add_to_condition m (tname n))) <-> x = tname n \/ In x (sm_cond m).
Proof.
  intros H. rewrite add_to_condition_in. pose proof (canonicalize_join [tname n]) as J. cbn [join] in J.
  rewrite J; [|intros y [<-|[]]; apply tname_plain; exact H]. cbn. intuition congruence.
Qed.

(** ** C09 *)

Definition falloff_table (tbl : dict (option damage_spec)) : Prop :=
  distinct_sets (map canonicalize (dkeys tbl))
  /\ (forall k n, In k (dkeys tbl) -> (1 <= n)%Z -> ~ In ("Target " ++ string_of_Z n) (canonicalize k))
  /\ (forall k v, In (k, v) tbl -> v <> None)
  /\ In "" (dkeys tbl).

Lemma aoe_falloff tbl d :
  falloff_table tbl ->
  exists c, post_init_damage (RDict tbl) (Some d) = Ok c
    /\ forall m, NoDup (sm_cond m) ->
         (forall n, (1 <= n)%Z -> ~ In ("Target " ++ string_of_Z n) (sm_cond m)) ->
         exists sp,
           cspec_get (canonicalize_spec (RDict tbl)) m = Ok (Some sp)
           /\ cspec_get c m = Ok (Some sp)
           /\ forall n, (1 <= n)%Z ->
                cspec_get c (add_to_condition m ("Target " ++ string_of_Z n))
                = Ok (Some (if (2 <=? n)%Z && (n <=? 9)%Z
                            then set_potency sp (fmul (fsub 1 d) (potency sp)) else sp)).
Proof.
  intros (D0 & T1 & S0 & E0).
  assert (T0 : forall k, In k (dkeys tbl) -> no_targets (canonicalize k)).
  { intros k Hk n Hn. apply T1; [exact Hk|]. cbn in Hn. lia. }
  eexists. split; [apply post_init_eq; assumption|].
  intros m N NT. cbn [canonicalize_spec cspec_get]. rewrite canonicalize_dict_eq by exact D0.
  change (map (fun kv => (canonicalize (fst kv), snd kv)) tbl) with (map canon_entry tbl).
  destruct (table_match tbl D0 T0 (sm_cond m) N E0) as (k & v & I & _ & L & _).
  destruct v as [sp|]; [|destruct (S0 _ _ I eq_refl)].
  exists sp. split; [exact L|].
  assert (NTm : no_targets (sm_cond m)) by (intros n Hn; apply NT; cbn in Hn; lia).
  split.
  - rewrite <- L. apply lookup_plain; auto. intros; reflexivity.
  - intros n Hn. change ("Target " ++ string_of_Z n) with (tname n).
    assert (Nm : NoDup (sm_cond (add_to_condition m (tname n)))) by (apply add_to_condition_nodup, N).
    destruct ((2 <=? n)%Z && (n <=? 9)%Z) eqn:B.
    + destruct (lookup_target tbl d D0 T0 (sm_cond m) (sm_cond (add_to_condition m (tname n))) n) as (v & L1 & L2);
        auto.
      * unfold dropoff_targets. cbn. lia.
      * intros x. rewrite add_target_in by lia. cbn. intuition congruence.
      * rewrite L2. rewrite L1 in L. injection L as ->. reflexivity.
    + rewrite <- L. apply lookup_plain; auto.
      * intros n' Hn' Hx. apply add_target_in in Hx as [Hx|Hx]; [|apply (NTm n' Hn' Hx)|lia].
        apply (tname_out n n'); [lia | exact Hn' | congruence].
      * intros k' Hk'. split; intros J x Hx; [|apply add_target_in; [lia|right; auto]].
        specialize (J x Hx). apply add_target_in in J as [->|J]; [|exact J|lia].
        destruct (T1 k' n Hk' Hn Hx).
Qed.

Lemma single_spec_no_falloff sp d :
  post_init_damage (ROne sp) (Some d) = Ok (COne sp)
  /\ (potency sp <> fmul (fsub 1 d) (potency sp) ->
      ~ (forall c, post_init_damage (ROne sp) (Some d) = Ok c ->
         forall m sp0 n, (2 <= n)%Z ->
           cspec_get (canonicalize_spec (ROne sp)) m = Ok (Some sp0) ->
           exists sp', cspec_get c (add_to_condition m ("Target " ++ string_of_Z n)) = Ok (Some sp')
             /\ potency sp' = fmul (fsub 1 d) (potency sp0))).
Proof.
  assert (E : post_init_damage (ROne sp) (Some d) = Ok (COne sp)).
  { cbn [post_init_damage]. rewrite process_aoe_dropoff_eq; [reflexivity| |].
    - intros k v [[= <- <-]|[]]. discriminate.
    - apply distinct_nodup. apply distinct_sets_dec. vm_compute. reflexivity. }
  split; [exact E|]. intros N H.
  destruct (H _ E default_modifier sp 2%Z ltac:(lia) eq_refl) as (sp' & G & P).
  cbn in G. injection G as <-. contradiction.
Qed.
