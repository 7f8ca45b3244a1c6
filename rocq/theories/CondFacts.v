(** * Facts about condition strings, best keys, tables and versions *)

From Coq Require Import ZArith QArith List String Ascii Bool Lia Permutation.
From Coq Require Import ZifyBool ZifyNat.
From Verif Require Import Base BaseFacts Float Strings Types Lookup SpecCond.
Import ListNotations.
Open Scope string_scope.

(** ** Strings *)

Lemma is_space_spec c : is_space c = true <-> space c.
Proof.
  unfold is_space, space. cbn [In].
  pose proof (nat_ascii_bounded c). set (n := nat_of_ascii c) in *. clearbody n. lia.
Qed.
Lemma is_space_false c : is_space c = false <-> ~ space c.
Proof. rewrite <- is_space_spec. destruct (is_space c); intuition congruence. Qed.

Lemma chars_app a b : chars (a ++ b) = (chars a ++ chars b)%list.
Proof. induction a as [|c a IH]; cbn; [reflexivity | rewrite IH; reflexivity]. Qed.

Lemma sapp_nil s : s ++ "" = s.
Proof. induction s as [|c s IH]; cbn; [reflexivity | rewrite IH; reflexivity]. Qed.
Lemma sapp_assoc a b c : (a ++ b) ++ c = a ++ b ++ c.
Proof. induction a as [|x a IH]; cbn; [reflexivity | rewrite IH; reflexivity]. Qed.

Lemma split_comma_ne s : split_comma s <> [].
Proof.
  destruct s as [|c s]; cbn; [discriminate|].
  destruct (Ascii.eqb c comma); [discriminate|]. destruct (split_comma s); discriminate.
Qed.

Lemma split_comma_free p : comma_free p -> split_comma p = [p].
Proof.
  induction p as [|c p IH]; cbn; intros H; [reflexivity|].
  destruct (Ascii.eqb_spec c comma) as [E|E].
  - exfalso. apply H. left. exact E.
  - rewrite IH; [reflexivity|]. intros F. apply H. right. exact F.
Qed.

Lemma split_comma_cons p s : comma_free p -> split_comma (p ++ "," ++ s) = p :: split_comma s.
Proof.
  induction p as [|c p IH]; intros H; [reflexivity|].
  change ((String c p) ++ "," ++ s) with (String c (p ++ "," ++ s)). cbn [split_comma].
  destruct (Ascii.eqb_spec c comma) as [E|E].
  - exfalso. apply H. left. exact E.
  - rewrite IH; [reflexivity|]. intros F. apply H. right. exact F.
Qed.

Lemma concat_cons2 sep p q l : String.concat sep (p :: q :: l) = p ++ sep ++ String.concat sep (q :: l).
Proof. reflexivity. Qed.

Lemma split_concat ps :
  ps <> [] -> (forall p, In p ps -> comma_free p) -> split_comma (String.concat "," ps) = ps.
Proof.
  induction ps as [|p ps IH]; [congruence|]. intros _ H.
  destruct ps as [|q ps].
  - cbn. apply split_comma_free, H. left; reflexivity.
  - rewrite concat_cons2. rewrite split_comma_cons by (apply H; left; reflexivity).
    f_equal. apply IH; [discriminate|]. intros x Hx. apply H. right. exact Hx.
Qed.

(** Every string is such a concatenation. *)
Lemma split_spec s :
  String.concat "," (split_comma s) = s /\ (forall p, In p (split_comma s) -> comma_free p).
Proof.
  induction s as [|c s [IH1 IH2]]; cbn [split_comma].
  - split; [reflexivity|]. intros p [<-|[]]. intros [].
  - pose proof (split_comma_ne s) as N.
    destruct (Ascii.eqb_spec c comma) as [E|E].
    + split.
      * destruct (split_comma s) as [|p ps] eqn:Ep; [congruence|].
        rewrite concat_cons2. rewrite IH1. subst c. reflexivity.
      * intros p [<-|Hp]; [intros [] | auto].
    + destruct (split_comma s) as [|p ps] eqn:Ep; [congruence|]. split.
      * destruct ps as [|q ps].
        -- cbn in *. rewrite IH1. reflexivity.
        -- rewrite concat_cons2 in *. change ((String c p) ++ "," ++ String.concat "," (q :: ps)) with
             (String c (p ++ "," ++ String.concat "," (q :: ps))). rewrite IH1. reflexivity.
      * intros x [<-|Hx].
        -- intros [F|F]; [apply E; exact F | apply (IH2 p (or_introl eq_refl) F)].
        -- apply IH2. right. exact Hx.
Qed.

Lemma lstrip_blank_app a s : blank a -> lstrip (a ++ s) = lstrip s.
Proof.
  induction a as [|c a IH]; intros H; [reflexivity|].
  cbn. assert (E : is_space c = true) by (apply is_space_spec, H; left; reflexivity).
  rewrite E. apply IH. intros x Hx. apply H. right. exact Hx.
Qed.
Lemma lstrip_decomp s : exists a, s = a ++ lstrip s /\ blank a.
Proof.
  induction s as [|c s (a & IH1 & IH2)]; cbn.
  - exists "". split; [reflexivity | intros x []].
  - destruct (is_space c) eqn:E.
    + exists (String c a). split; [cbn; rewrite <- IH1; reflexivity|].
      intros x [<-|Hx]; [apply is_space_spec; exact E | auto].
    + exists "". split; [reflexivity | intros x []].
Qed.
Lemma lstrip_head s c s' : lstrip s = String c s' -> ~ space c.
Proof.
  induction s as [|x s IH]; cbn; [discriminate|].
  destruct (is_space x) eqn:E; [exact IH|]. intros H; injection H as <- <-. apply is_space_false; exact E.
Qed.
Lemma lstrip_id s : (forall c s', s = String c s' -> ~ space c) -> lstrip s = s.
Proof.
  destruct s as [|c s]; intros H; [reflexivity|]. cbn.
  assert (E : is_space c = false) by (apply is_space_false; eapply H; reflexivity).
  rewrite E. reflexivity.
Qed.

Lemma rstrip_blank b : blank b -> rstrip b = "".
Proof.
  induction b as [|c b IH]; intros H; cbn; [reflexivity|].
  rewrite IH by (intros x Hx; apply H; right; exact Hx).
  assert (E : is_space c = true) by (apply is_space_spec, H; left; reflexivity). rewrite E. reflexivity.
Qed.
Lemma rstrip_app_blank s b : blank b -> rstrip (s ++ b) = rstrip s.
Proof.
  intros H. induction s as [|c s IH]; cbn; [apply rstrip_blank; exact H | rewrite IH; reflexivity].
Qed.
Lemma rstrip_decomp s : exists b, s = rstrip s ++ b /\ blank b.
Proof.
  induction s as [|c s (b & IH1 & IH2)]; cbn.
  - exists "". split; [reflexivity | intros x []].
  - destruct (rstrip s) as [|c' r] eqn:E.
    + cbn in IH1. destruct (is_space c) eqn:F.
      * exists (String c b). split; [cbn; rewrite IH1; reflexivity|].
        intros x [<-|Hx]; [apply is_space_spec; exact F | auto].
      * exists b. split; [cbn; rewrite <- IH1; reflexivity | exact IH2].
    + exists b. split; [cbn in *; rewrite IH1 at 1; reflexivity | exact IH2].
Qed.
Lemma app_last_char s c c' s' : s ++ String c "" = s' ++ String c' "" -> s = s' /\ c = c'.
Proof.
  revert s'; induction s as [|x s IH]; intros [|y s']; cbn; intros H.
  - injection H as ->; auto.
  - injection H as -> H. destruct s'; discriminate.
  - injection H as -> H. destruct s; discriminate.
  - injection H as -> H. apply IH in H as [-> ->]. auto.
Qed.
Lemma rstrip_last s c s' : rstrip s = s' ++ String c "" -> ~ space c.
Proof.
  revert s'; induction s as [|x s IH]; intros s'; cbn; [destruct s'; discriminate|].
  destruct (rstrip s) as [|c' r] eqn:E.
  - destruct (is_space x) eqn:F; [destruct s'; discriminate|].
    destruct s' as [|y s']; cbn; intros H; injection H as H1.
    + subst. apply is_space_false; exact F.
    + destruct s'; discriminate.
  - destruct s' as [|y s']; cbn; intros H; injection H as H1 H2.
    + discriminate.
    + eapply IH. exact H2.
Qed.
Lemma rstrip_id s : (forall c s', s = s' ++ String c "" -> ~ space c) -> rstrip s = s.
Proof.
  induction s as [|c s IH]; intros H; [reflexivity|]. cbn.
  rewrite IH.
  - destruct s as [|x s]; [|reflexivity].
    assert (E : is_space c = false) by (apply is_space_false, (H c ""); reflexivity). rewrite E. reflexivity.
  - intros c' s' ->. apply (H c' (String c s')). reflexivity.
Qed.
Lemma rstrip_head s c s' : rstrip s = String c s' -> exists s'', s = String c s''.
Proof.
  destruct s as [|x s]; cbn; [discriminate|]. destruct (rstrip s).
  - destruct (is_space x); [discriminate|]. intros H; injection H as -> _. eauto.
  - intros H; injection H as -> _. eauto.
Qed.

Lemma strip_spec p : trim_of p (strip p).
Proof.
  unfold strip. destruct (lstrip_decomp p) as (a & E1 & B1).
  destruct (rstrip_decomp (lstrip p)) as (b & E2 & B2).
  exists a, b. split; [rewrite <- E2; exact E1|]. split; [exact B1|]. split; [exact B2|].
  split.
  - intros c s' E. apply rstrip_head in E as (s'' & E). eapply lstrip_head; exact E.
  - intros c s' E. eapply rstrip_last; exact E.
Qed.
Lemma strip_unique p x : trim_of p x -> strip p = x.
Proof.
  intros (a & b & -> & Ba & Bb & T1 & T2). unfold strip.
  rewrite lstrip_blank_app by exact Ba.
  destruct x as [|c x].
  - cbn. replace b with (b ++ "") by apply sapp_nil. rewrite lstrip_blank_app by exact Bb. reflexivity.
  - rewrite lstrip_id.
    + rewrite rstrip_app_blank by exact Bb. apply rstrip_id. exact T2.
    + intros c' s' E. cbn in E. injection E as -> _. eapply T1; reflexivity.
Qed.
Lemma strip_iff p x : strip p = x <-> trim_of p x.
Proof. split; [intros <-; apply strip_spec | apply strip_unique]. Qed.
Lemma strip_id x : trimmed x -> strip x = x.
Proof.
  intros T. apply strip_unique. exists "", "". rewrite sapp_nil. repeat split; try (intros c []); apply T.
Qed.

(** ** Sets *)

Lemma set_union_in x a b : In x (set_union a b) <-> In x a \/ In x b.
Proof.
  unfold set_union. revert a; induction b as [|y b IH]; intros a; cbn; [tauto|].
  rewrite IH, sadd_in. intuition.
Qed.
Lemma set_union_nodup a b : NoDup a -> NoDup (set_union a b).
Proof.
  unfold set_union. revert a; induction b as [|y b IH]; intros a N; cbn; [exact N|].
  apply IH, sadd_nodup, N.
Qed.
Lemma sadd_same x a : In x a -> sadd x a = a.
Proof. intros H. unfold sadd. apply smem_spec in H. rewrite H. reflexivity. Qed.
Lemma set_union_incl a b : incl b a -> set_union a b = a.
Proof.
  unfold set_union. revert a; induction b as [|y b IH]; intros a I; cbn; [reflexivity|].
  rewrite sadd_same by (apply I; left; reflexivity). apply IH. intros x Hx. apply I. right. exact Hx.
Qed.
Lemma set_of_in x l : In x (set_of l) <-> In x l.
Proof. change (set_of l) with (set_union [] l). rewrite set_union_in. cbn. tauto. Qed.
Lemma set_of_nodup l : NoDup (set_of l).
Proof. apply set_union_nodup. constructor. Qed.

Lemma canonicalize_in s x :
  In x (canonicalize s) <-> s <> "" /\ exists p, In p (split_comma s) /\ strip p = x.
Proof.
  destruct s as [|c s]; unfold canonicalize.
  - cbn. split; [tauto | intros [H _]; congruence].
  - rewrite set_of_in, in_map_iff. split.
    + intros (p & <- & H). split; [discriminate | eauto].
    + intros (_ & p & H & <-). eauto.
Qed.
Lemma canonicalize_nodup s : NoDup (canonicalize s).
Proof. destruct s; [constructor | apply set_of_nodup]. Qed.

Lemma canonicalize_denotes ps :
  ps <> [] -> (forall p, In p ps -> comma_free p) -> String.concat "," ps <> "" ->
  forall x, In x (canonicalize (String.concat "," ps)) <-> exists p, In p ps /\ trim_of p x.
Proof.
  intros N C E x. rewrite canonicalize_in, split_concat by assumption.
  split.
  - intros (_ & p & H & S). exists p. rewrite <- strip_iff. auto.
  - intros (p & H & S). split; [exact E|]. exists p. rewrite strip_iff. auto.
Qed.

(** ** Modifiers *)

Lemma add_to_condition_in m c x :
  In x (sm_cond (add_to_condition m c)) <-> In x (sm_cond m) \/ In x (canonicalize c).
Proof.
  destruct c as [|a c]; cbn [add_to_condition].
  - cbn. tauto.
  - cbn [set_cond sm_cond]. apply set_union_in.
Qed.
Lemma add_to_condition_nodup m c : NoDup (sm_cond m) -> NoDup (sm_cond (add_to_condition m c)).
Proof.
  intros N. destruct c as [|a c]; cbn [add_to_condition]; [exact N|]. apply set_union_nodup, N.
Qed.
Lemma add_to_condition_fields m c :
  add_to_condition m c = set_cond m (sm_cond (add_to_condition m c)).
Proof. destruct m, c; reflexivity. Qed.
Lemma add_to_condition_idem m c :
  add_to_condition (add_to_condition m c) c = add_to_condition m c.
Proof.
  rewrite add_to_condition_fields. rewrite (add_to_condition_fields m c) at 3.
  assert (E : sm_cond (add_to_condition (add_to_condition m c) c) = sm_cond (add_to_condition m c)).
  { destruct c as [|a c]; [reflexivity|]. cbn [add_to_condition set_cond sm_cond].
    apply set_union_incl. intros x Hx. apply set_union_in. right. exact Hx. }
  rewrite E. rewrite (add_to_condition_fields m c) at 1. destruct m; reflexivity.
Qed.
Lemma add_to_condition_comm m c1 c2 :
  same_set (sm_cond (add_to_condition (add_to_condition m c1) c2))
           (sm_cond (add_to_condition (add_to_condition m c2) c1)).
Proof. intros x. rewrite !add_to_condition_in. tauto. Qed.

(** ** join *)

Lemma space_char : space " "%char.
Proof. unfold space. cbn. tauto. Qed.

(** The parts of a joined string: the first as is, the others with a space. *)
Lemma split_join p l :
  comma_free p -> (forall x, In x l -> comma_free x) ->
  split_comma (join ", " (p :: l)) = p :: map (fun x => " " ++ x) l.
Proof.
  revert p; induction l as [|q l IH]; intros p Hp Hl.
  - cbn. apply split_comma_free, Hp.
  - change (join ", " (p :: q :: l)) with (p ++ "," ++ (" " ++ join ", " (q :: l))).
    rewrite split_comma_cons by exact Hp. f_equal.
    change (" " ++ join ", " (q :: l)) with (String " " (join ", " (q :: l))).
    cbn [split_comma Ascii.eqb comma Bool.eqb].
    rewrite IH; [reflexivity | apply Hl; left; reflexivity | intros x Hx; apply Hl; right; exact Hx].
Qed.

Definition plain_name (x : string) : Prop := comma_free x /\ trimmed x /\ x <> "".

Lemma canonicalize_join l :
  (forall x, In x l -> plain_name x) -> forall x, In x (canonicalize (join ", " l)) <-> In x l.
Proof.
  intros H x. destruct l as [|p l]; [reflexivity|].
  rewrite canonicalize_in, split_join; [|apply H; left; reflexivity|intros y Hy; apply H; right; exact Hy].
  split.
  - intros (_ & y & [<-|Hy] & S).
    + left. symmetry. rewrite <- S. apply strip_id, H. left; reflexivity.
    + apply in_map_iff in Hy as (z & <- & Hz). right.
      assert (T : trim_of (" " ++ z) z).
      { exists " ", "". rewrite sapp_nil. split; [reflexivity|]. split.
        - intros c [<-|[]]. exact space_char.
        - split; [intros c [] | apply H; right; exact Hz]. }
      apply strip_iff in T. rewrite T in S. subst. exact Hz.
  - intros Hx. split.
    + destruct l as [|q l].
      * cbn. apply H. left; reflexivity.
      * change (join ", " (p :: q :: l)) with (p ++ ", " ++ join ", " (q :: l)).
        destruct p; discriminate.
    + destruct Hx as [<-|Hx].
      * exists p. split; [left; reflexivity | apply strip_id, H; left; reflexivity].
      * exists (" " ++ x). split; [right; apply in_map_iff; eauto|].
        apply strip_iff. exists " ", "". rewrite sapp_nil. split; [reflexivity|]. split.
        -- intros c [<-|[]]. exact space_char.
        -- split; [intros c [] | apply H; right; exact Hx].
Qed.

(** ** Best keys *)

Lemma subset_spec a b : subset a b = true <-> incl a b.
Proof.
  unfold subset. rewrite forallb_forall. unfold incl. split; intros H x Hx.
  - apply smem_spec, H, Hx.
  - apply smem_spec, H, Hx.
Qed.
Lemma cond_eqb_spec a b : cond_eqb a b = true <-> same_set a b.
Proof.
  unfold cond_eqb. rewrite andb_true_iff, !subset_spec. unfold incl, same_set. firstorder.
Qed.
Lemma cond_eqb_refl a : cond_eqb a a = true.
Proof. apply cond_eqb_spec. intros x; tauto. Qed.

Lemma incl_same_length (k wc : list string) :
  NoDup k -> NoDup wc -> incl k wc -> List.length k = List.length wc -> same_set k wc.
Proof.
  intros N1 N2 I L x. split; [apply I|].
  apply (NoDup_length_incl N1); [lia | exact I].
Qed.

Lemma best_key_loop wc keys :
  NoDup wc -> distinct_sets keys ->
  forall done st,
    st = fold_left (best_key_step wc) done (-1, [])%Z ->
    (forall k k', In k keys -> In k' done -> ~ same_set k' k) -> (forall k, In k done -> NoDup k) ->
    (snd st = [] /\ fst st = -1 /\ (forall k, In k done -> ~ incl k wc)
     \/ exists k, snd st = [k] /\ fst st = clen k /\ best_key done wc k)%Z ->
    let st' := fold_left (best_key_step wc) keys st in
    (snd st' = [] /\ fst st' = -1 /\ (forall k, In k (done ++ keys) -> ~ incl k wc)
     \/ exists k, snd st' = [k] /\ fst st' = clen k /\ best_key (done ++ keys) wc k)%Z.
Proof.
  intros Nw D. induction D as [|k l Nk Dk D IH]; intros done st Hst Hd Hn I; cbn [fold_left].
  - rewrite app_nil_r. exact I.
  - replace (done ++ k :: l)%list with ((done ++ [k]) ++ l)%list by (rewrite <- app_assoc; reflexivity).
    apply IH.
    + rewrite fold_left_app. cbn. subst st. reflexivity.
    + intros x y Hx Hy. apply in_app_iff in Hy as [Hy|[<-|[]]].
      * apply Hd; [right; exact Hx | exact Hy].
      * apply Dk. exact Hx.
    + intros x Hx. apply in_app_iff in Hx as [Hx|[<-|[]]]; auto.
    + clear IH Hst. destruct st as [mx best]. cbn [fst snd] in I. unfold best_key_step.
      assert (LE : subset k wc = true -> (clen k <= clen wc)%Z).
      { intros S. apply subset_spec in S. unfold clen. pose proof (NoDup_incl_length Nk S). lia. }
      destruct I as [(-> & -> & I)|(b & -> & -> & I)].
      * destruct (Z.ltb_spec (clen k) (-1)) as [L|L]; [unfold clen in L; lia|].
        destruct (subset k wc) eqn:S.
        -- right. assert ((-1 <? clen wc) = true)%Z by (unfold clen; lia). rewrite H.
           exists k. cbn [fst snd]. split; [reflexivity|]. split; [reflexivity|].
           exists done, []. split; [reflexivity|]. split; [apply subset_spec; exact S|]. split.
           ++ intros k' Hk' Ik'. apply in_app_iff in Hk' as [Hk'|[<-|[]]]; [|lia].
              exfalso. exact (I k' Hk' Ik').
           ++ intros k' [].
        -- left. cbn [fst snd]. split; [reflexivity|]. split; [reflexivity|].
           intros k' Hk'. apply in_app_iff in Hk' as [Hk'|[<-|[]]]; [auto|].
           intros J. apply subset_spec in J. congruence.
      * right. destruct I as (l1 & l2 & E & Ib & Mb & Lb).
        assert (Old : (~ incl k wc \/ (clen k < clen b)%Z) ->
                      best_key (done ++ [k]) wc b).
        { intros Cond. exists l1, (l2 ++ [k])%list. split; [rewrite E, <- app_assoc; reflexivity|].
          split; [exact Ib|]. split.
          - intros k' Hk' Ik'. apply in_app_iff in Hk' as [Hk'|[<-|[]]]; [auto|].
            destruct Cond as [C|C]; [contradiction | unfold clen in C; lia].
          - intros k' Hk' Ik'. apply in_app_iff in Hk' as [Hk'|[<-|[]]]; [auto|].
            destruct Cond as [C|C]; [contradiction | unfold clen in C; lia]. }
        destruct (Z.ltb_spec (clen k) (clen b)) as [L|L].
        { exists b. cbn [fst snd]. split; [reflexivity|]. split; [reflexivity|]. apply Old. right; exact L. }
        destruct (subset k wc) eqn:S.
        2:{ exists b. cbn [fst snd]. split; [reflexivity|]. split; [reflexivity|]. apply Old. left.
            intros J. apply subset_spec in J. congruence. }
        specialize (LE eq_refl). apply subset_spec in S.
        assert (Hb : In b done) by (rewrite E; apply in_app_iff; right; left; reflexivity).
        destruct (Z.ltb_spec (clen b) (clen wc)) as [W|W].
        -- exists k. cbn [fst snd]. split; [reflexivity|]. split; [reflexivity|].
           exists done, []. split; [reflexivity|]. split; [exact S|]. split.
           ++ intros k' Hk' Ik'. apply in_app_iff in Hk' as [Hk'|[<-|[]]]; [|lia].
              specialize (Mb k' Hk' Ik'). unfold clen in L. lia.
           ++ intros k' [].
        -- exfalso. apply (Hd k b (or_introl eq_refl) Hb).
           assert (Eb : same_set b wc).
           { apply incl_same_length; auto. pose proof (NoDup_incl_length (Hn b Hb) Ib).
             unfold clen in *. lia. }
           assert (Ek : same_set k wc).
           { apply incl_same_length; auto. unfold clen in *. lia. }
           intros x. rewrite (Eb x), (Ek x). tauto.
Qed.

Lemma get_best_key_spec keys wc :
  NoDup wc -> distinct_sets keys ->
  ((forall k, In k keys -> ~ incl k wc) /\ get_best_key keys wc = Ok [""])
  \/ exists k, get_best_key keys wc = Ok k /\ best_key keys wc k.
Proof.
  intros Nw D.
  pose proof (best_key_loop wc keys Nw D [] (-1, [])%Z eq_refl) as H.
  cbn [app] in H. specialize (H ltac:(intros k k' _ []) ltac:(intros k [])).
  specialize (H ltac:(left; cbn; repeat split; intros k [])). cbn zeta in H.
  unfold get_best_key. set (st := fold_left (best_key_step wc) keys (-1, [])%Z) in *.
  destruct H as [(-> & _ & H)|(k & -> & _ & H)]; [left; auto | right; eauto].
Qed.

Lemma best_key_in keys wc k : best_key keys wc k -> In k keys.
Proof. intros (l1 & l2 & -> & _). apply in_app_iff. right. left. reflexivity. Qed.

Lemma cget_in {V} k (v : V) d : cget k d = Some v -> exists k', In (k', v) d /\ same_set k k'.
Proof.
  induction d as [|[k' v'] d IH]; cbn; [discriminate|].
  destruct (cond_eqb k k') eqn:E.
  - intros H; injection H as ->. exists k'. split; [auto | apply cond_eqb_spec; exact E].
  - intros H. apply IH in H as (k'' & H & S). eauto.
Qed.
Lemma cget_none {V} k (d : list (cond * V)) :
  cget k d = None <-> forall k', In k' (map fst d) -> ~ same_set k k'.
Proof.
  induction d as [|[k' v'] d IH]; cbn.
  - split; [intros _ k' [] | reflexivity].
  - destruct (cond_eqb k k') eqn:E.
    + split; [discriminate|]. intros H. exfalso. apply (H k' (or_introl eq_refl)).
      apply cond_eqb_spec; exact E.
    + rewrite IH. split.
      * intros H x [<-|Hx]; [intros S; apply cond_eqb_spec in S; congruence | auto].
      * intros H x Hx. apply H. right; exact Hx.
Qed.
Lemma same_set_sym a b : same_set a b -> same_set b a.
Proof. intros H x. symmetry. apply H. Qed.
Lemma same_set_trans a b c : same_set a b -> same_set b c -> same_set a c.
Proof. intros H1 H2 x. rewrite (H1 x). apply H2. Qed.
Lemma in_cget {V} k (v : V) d : distinct_sets (map fst d) -> In (k, v) d -> cget k d = Some v.
Proof.
  induction d as [|[k' v'] d IH]; cbn; [tauto|]. intros D H.
  inversion D as [|? ? N1 N2 D']; subst. destruct H as [E|H].
  - injection E as -> ->. rewrite cond_eqb_refl. reflexivity.
  - destruct (cond_eqb k k') eqn:E; [|auto].
    exfalso. apply cond_eqb_spec in E. apply (N2 k); [apply in_map_iff; exists (k, v); auto|].
    apply same_set_sym; exact E.
Qed.

Lemma clookup_spec {V} (d : list (cond * V)) wc :
  NoDup wc -> distinct_sets (map fst d) ->
  (exists k v, In (k, v) d /\ best_key (map fst d) wc k /\ clookup d wc = Ok v)
  \/ ((forall k, In k (map fst d) -> ~ incl k wc)
      /\ clookup d wc = of_option KeyError (cget [""] d)).
Proof.
  intros Nw D. unfold clookup. destruct (get_best_key_spec (map fst d) wc Nw D) as [(H & ->)|(k & -> & B)].
  - right. split; [exact H | reflexivity].
  - left. pose proof (best_key_in _ _ _ B) as Hk. apply in_map_iff in Hk as ((k' & v) & E & Hk).
    cbn in E. subst k'. exists k, v. split; [exact Hk|]. split; [exact B|].
    cbn. rewrite (in_cget k v d D Hk). reflexivity.
Qed.

(** ** canonicalize_dict builds well-formed tables *)

Lemma cset_keys {V} k (v : V) d :
  map fst (cset k v d) = if existsb (cond_eqb k) (map fst d) then map fst d else (map fst d ++ [k])%list.
Proof.
  induction d as [|[k' v'] d IH]; cbn; [reflexivity|].
  destruct (cond_eqb k k'); cbn; [reflexivity|]. rewrite IH. destruct (existsb _ _); reflexivity.
Qed.
Lemma distinct_sets_snoc l k :
  distinct_sets l -> NoDup k -> (forall k', In k' l -> ~ same_set k k') -> distinct_sets (l ++ [k]).
Proof.
  intros D N H. induction D as [|x l Nx Dx D IH]; cbn.
  - constructor; [exact N | intros k' [] | constructor].
  - constructor; [exact Nx | | apply IH; intros; apply H; right; assumption].
    intros k' Hk'. apply in_app_iff in Hk' as [Hk'|[<-|[]]]; [auto|].
    intros S. apply (H x (or_introl eq_refl)). apply same_set_sym; exact S.
Qed.
Lemma cset_distinct {V} k (v : V) d :
  NoDup k -> distinct_sets (map fst d) -> distinct_sets (map fst (cset k v d)).
Proof.
  intros N D. rewrite cset_keys. match goal with |- context [if ?b then _ else _] => destruct b eqn:E end; [exact D|].
  apply distinct_sets_snoc; [exact D | exact N|].
  intros k' Hk' S. rewrite <- Bool.not_true_iff_false in E. apply E.
  apply existsb_exists. exists k'. split; [exact Hk' | apply cond_eqb_spec; exact S].
Qed.
Lemma canonicalize_dict_gen {V} (d : dict V) acc :
  distinct_sets (map fst acc) ->
  distinct_sets (map fst (fold_left (fun acc kv => cset (canonicalize (fst kv)) (snd kv) acc) d acc)).
Proof.
  revert acc; induction d as [|[k v] d IH]; intros acc D; cbn; [exact D|].
  apply IH, cset_distinct; [apply canonicalize_nodup | exact D].
Qed.
Lemma canonicalize_dict_distinct {V} (d : dict V) : distinct_sets (map fst (canonicalize_dict d)).
Proof. apply canonicalize_dict_gen. constructor. Qed.

Lemma cget_cset {V} k k' (v : V) d :
  cget k (cset k' v d) = if cond_eqb k k' then Some v else cget k d.
Proof.
  induction d as [|[k'' v'] d IH]; cbn; [reflexivity|].
  destruct (cond_eqb k' k'') eqn:E; cbn.
  - destruct (cond_eqb k k'') eqn:F, (cond_eqb k k') eqn:G; try reflexivity; exfalso.
    + apply cond_eqb_spec in E, F. apply same_set_sym in E.
      pose proof (same_set_trans _ _ _ F E) as H. apply cond_eqb_spec in H. congruence.
    + apply cond_eqb_spec in E, G. pose proof (same_set_trans _ _ _ G E) as H.
      apply cond_eqb_spec in H. congruence.
  - destruct (cond_eqb k k'') eqn:F; [|exact IH].
    destruct (cond_eqb k k') eqn:G; [|reflexivity]. exfalso.
    apply cond_eqb_spec in F, G. apply same_set_sym in G.
    pose proof (same_set_trans _ _ _ G F) as H. apply cond_eqb_spec in H. congruence.
Qed.

(** Every key of the canonical table is the canonical form of a declared key with
    that very value, and every declared key has an entry. *)
Lemma cset_in {V} k (v : V) d k' v' :
  In (k', v') (cset k v d) -> In (k', v') d \/ (v' = v /\ same_set k' k).
Proof.
  induction d as [|[k'' v''] d IH]; cbn.
  - intros [E|[]]. injection E as <- <-. right. split; [reflexivity | intros x; tauto].
  - destruct (cond_eqb k k'') eqn:E.
    + intros [F|F]; [|auto]. injection F as <- <-. right. split; [reflexivity|].
      apply same_set_sym, cond_eqb_spec. exact E.
    + intros [F|F]; [auto|]. apply IH in F. tauto.
Qed.
Lemma canonicalize_dict_in {V} (d : dict V) k v :
  In (k, v) (canonicalize_dict d) -> exists s, In (s, v) d /\ same_set k (canonicalize s).
Proof.
  unfold canonicalize_dict.
  cut (forall acc, In (k, v) (fold_left (fun acc kv => cset (canonicalize (fst kv)) (snd kv) acc) d acc) ->
         In (k, v) acc \/ exists s, In (s, v) d /\ same_set k (canonicalize s)).
  { intros H I. apply H in I as [[]|I]. exact I. }
  induction d as [|[s w] d IH]; intros acc H; cbn in *; [auto|].
  apply IH in H as [H|(s' & H & S)].
  - apply cset_in in H as [H|[-> S]]; [auto|]. right. exists s. auto.
  - right. exists s'. auto.
Qed.
Lemma canonicalize_dict_has {V} (d : dict V) s :
  In s (dkeys d) -> exists k v, In (k, v) (canonicalize_dict d) /\ same_set k (canonicalize s).
Proof.
  intros H. destruct (cget (canonicalize s) (canonicalize_dict d)) as [v|] eqn:E.
  - apply cget_in in E as (k & I & S). exists k, v. split; [exact I | apply same_set_sym; exact S].
  - exfalso. revert E. unfold canonicalize_dict.
    cut (forall acc, cget (canonicalize s) acc <> None \/ In s (dkeys d) ->
          cget (canonicalize s)
            (fold_left (fun acc kv => cset (canonicalize (fst kv)) (snd kv) acc) d acc) <> None).
    { intros G. apply (G []). right. exact H. }
    clear H. induction d as [|[s' w] d IH]; intros acc [H|H]; cbn in *; auto; try contradiction.
    + apply IH. left. rewrite cget_cset. destruct (cond_eqb _ _); [discriminate | exact H].
    + apply IH. destruct H as [->|H]; [left | right; exact H].
      rewrite cget_cset, cond_eqb_refl. discriminate.
Qed.

Lemma conditional_total {A} (d : dict (option A)) (m : modifier) :
  NoDup (sm_cond m) -> In "" (dkeys d) ->
  exists s v, In (s, v) d /\ incl (canonicalize s) (sm_cond m)
    /\ cspec_get (canonicalize_spec (RDict d)) m = Ok v.
Proof.
  intros N H. cbn [canonicalize_spec cspec_get].
  destruct (clookup_spec (canonicalize_dict d) (sm_cond m) N (canonicalize_dict_distinct d))
    as [(k & v & I & B & E)|(F & _)].
  - apply canonicalize_dict_in in I as (s & I & S). exists s, v. split; [exact I|]. split; [|exact E].
    destruct B as (_ & _ & _ & Ik & _). intros x Hx. apply Ik. apply S. exact Hx.
  - exfalso. apply canonicalize_dict_has in H as (k & v & I & S).
    apply (F k); [apply in_map_iff; exists (k, v); auto|].
    intros x Hx. apply S in Hx. destruct Hx.
Qed.

Lemma conditional_best {A} (d : dict (option A)) (m : modifier) v :
  NoDup (sm_cond m) -> cspec_get (canonicalize_spec (RDict d)) m = Ok v ->
  (exists s, In (s, v) d /\ incl (canonicalize s) (sm_cond m)
     /\ forall s', In s' (dkeys d) -> incl (canonicalize s') (sm_cond m) ->
          (List.length (canonicalize s') <= List.length (canonicalize s))%nat)
  \/ ((forall s, In s (dkeys d) -> ~ incl (canonicalize s) (sm_cond m))
      /\ exists s, In (s, v) d /\ same_set (canonicalize s) [""]).
Proof.
  intros N. cbn [canonicalize_spec cspec_get]. intros E.
  assert (LenEq : forall a b, NoDup a -> NoDup b -> same_set a b -> List.length a = List.length b).
  { intros a b Na Nb S. apply Permutation_length. apply NoDup_Permutation; auto. }
  assert (KN : forall k, In k (map fst (canonicalize_dict d)) -> NoDup k).
  { pose proof (canonicalize_dict_distinct d) as D. induction D as [|k l Nk _ D IH]; [intros k []|].
    intros k' [<-|Hk']; auto. }
  destruct (clookup_spec (canonicalize_dict d) (sm_cond m) N (canonicalize_dict_distinct d))
    as [(k & v' & I & B & E')|(F & E')]; rewrite E' in E.
  - injection E as ->. left. pose proof (best_key_in _ _ _ B) as Bk.
    apply canonicalize_dict_in in I as (s & I & S). exists s. split; [exact I|].
    destruct B as (_ & _ & _ & Ik & Mk & _).
    split; [intros x Hx; apply Ik, S, Hx|].
    intros s' Hs' Is'. apply canonicalize_dict_has in Hs' as (k' & w & I' & S').
    assert (Hk' : In k' (map fst (canonicalize_dict d))) by (apply in_map_iff; exists (k', w); auto).
    rewrite <- (LenEq k' (canonicalize s')), <- (LenEq k (canonicalize s));
      auto using canonicalize_nodup.
    apply Mk; [exact Hk'|]. intros x Hx. apply Is', S', Hx.
  - right. split.
    + intros s Hs Is. apply canonicalize_dict_has in Hs as (k & w & I & S).
      apply (F k); [apply in_map_iff; exists (k, w); auto|]. intros x Hx. apply Is, S, Hx.
    + destruct (cget [""] (canonicalize_dict d)) as [v'|] eqn:G; [|discriminate].
      cbn in E. injection E as ->. apply cget_in in G as (k & I & S).
      apply canonicalize_dict_in in I as (s & I & S'). exists s. split; [exact I|].
      apply same_set_sym. eapply same_set_trans; eassumption.
Qed.

(** ** Versions *)

Lemma str_leb_refl a : str_leb a a = true.
Proof. rewrite str_leb_ltb, str_ltb_irrefl. reflexivity. Qed.
Lemma str_leb_trans a b c : str_leb a b = true -> str_leb b c = true -> str_leb a c = true.
Proof.
  rewrite !str_leb_ltb. intros H1 H2.
  apply negb_true_iff in H1, H2. apply negb_true_iff. exact (str_ltb_ntrans c b a H2 H1).
Qed.
Lemma str_leb_antisym a b : str_leb a b = true -> str_leb b a = true -> a = b.
Proof.
  rewrite !str_leb_ltb. intros H1 H2. apply negb_true_iff in H1, H2. apply str_ltb_total; assumption.
Qed.

Lemma str_max_spec l m :
  str_max l = Some m -> In m l /\ forall x, In x l -> str_leb x m = true.
Proof.
  destruct l as [|a l]; [discriminate|]. cbn. intros H; injection H as <-.
  revert a; induction l as [|y l IH]; intros a; cbn.
  - split; [auto|]. intros x [<-|[]]. apply str_leb_refl.
  - destruct (IH (if str_ltb a y then y else a)) as [I1 I2]. cbn in I1, I2.
    set (r := fold_left _ l _) in *. split.
    + destruct I1 as [I1|I1]; [|auto]. destruct (str_ltb a y); auto.
    + intros x [<-|[<-|Hx]]; [| |auto].
      * apply str_leb_trans with (if str_ltb a y then y else a); [|apply I2; auto].
        destruct (str_ltb a y) eqn:E; [|apply str_leb_refl].
        rewrite str_leb_ltb. rewrite (str_ltb_asym _ _ E). reflexivity.
      * apply str_leb_trans with (if str_ltb a y then y else a); [|apply I2; auto].
        destruct (str_ltb a y) eqn:E; [apply str_leb_refl|].
        rewrite str_leb_ltb, E. reflexivity.
Qed.
Lemma str_max_none l : str_max l = None <-> l = [].
Proof. destruct l; cbn; split; congruence. Qed.

Definition newest {V} (d : dict V) (qv : string) (k : string) : Prop :=
  In k (dkeys d) /\ String.leb k qv = true
  /\ forall k', In k' (dkeys d) -> String.leb k' qv = true -> String.leb k' k = true.

Lemma leb_str_leb a b : String.leb a b = str_leb a b.
Proof. unfold String.leb, str_leb. destruct (String.compare a b); reflexivity. Qed.

Lemma version_lookup {V} (d : dict V) qv :
  (forall v, get_greatest_dict_val d qv = Some v <-> exists k, newest d qv k /\ dget k d = Some v)
  /\ (get_greatest_dict_val d qv = None <-> forall k, In k (dkeys d) -> String.leb k qv = false).
Proof.
  unfold get_greatest_dict_val, get_greatest_val_less_than_query.
  assert (G : forall k, str_max (filter (fun k => str_leb k qv) (dkeys d)) = Some k <-> newest d qv k).
  { intros k. split.
    - intros H. apply str_max_spec in H as [H1 H2]. apply filter_In in H1 as [H1 H3].
      split; [exact H1|]. rewrite leb_str_leb. split; [exact H3|].
      intros k' Hk' L. rewrite leb_str_leb in *. apply H2, filter_In. auto.
    - intros (H1 & H2 & H3). rewrite leb_str_leb in H2.
      destruct (str_max _) as [m|] eqn:E.
      + apply str_max_spec in E as [E1 E2]. apply filter_In in E1 as [E1 E3].
        f_equal. apply str_leb_antisym.
        * rewrite <- leb_str_leb. apply H3; [exact E1 | rewrite leb_str_leb; exact E3].
        * apply E2, filter_In. auto.
      + apply str_max_none in E. assert (In k []) as []. rewrite <- E. apply filter_In. auto. }
  destruct (str_max (filter (fun k => str_leb k qv) (dkeys d))) as [m|] eqn:E; cbn [of_option].
  - assert (Hm : newest d qv m) by (apply G; reflexivity). split.
    + intros v. split.
      * intros H. exists m. auto.
      * intros (k & Hk & H). apply G in Hk. injection Hk as <-. exact H.
    + split.
      * intros H. exfalso. apply dget_none_iff in H. apply H, Hm.
      * intros H. destruct Hm as (H1 & H2 & _). rewrite (H m H1) in H2. discriminate.
  - split.
    + intros v. split; [discriminate|]. intros (k & Hk & _). apply G in Hk. discriminate.
    + split; [|reflexivity]. intros _ k Hk. rewrite leb_str_leb.
      destruct (str_leb k qv) eqn:L; [|reflexivity].
      apply str_max_none in E. assert (In k []) as []. rewrite <- E. apply filter_In. auto.
Qed.

Lemma version_lookup_perm {V} (d d' : dict V) qv :
  NoDup (dkeys d) -> Permutation d d' -> get_greatest_dict_val d qv = get_greatest_dict_val d' qv.
Proof.
  intros N P.
  assert (N' : NoDup (dkeys d')) by (eapply Permutation_NoDup; [apply Permutation_map, P | exact N]).
  assert (K : forall k, In k (dkeys d) <-> In k (dkeys d')).
  { intros k. split; apply Permutation_in; [|symmetry]; apply Permutation_map, P. }
  assert (D : forall k v, dget k d = Some v <-> dget k d' = Some v).
  { intros k v. split; intros H; apply dget_in in H; apply in_dget; auto.
    - apply (Permutation_in _ P H).
    - apply (Permutation_in _ (Permutation_sym P) H). }
  assert (Nw : forall k, newest d qv k <-> newest d' qv k).
  { intros k. unfold newest. rewrite K. split; intros (A & B & C); repeat split; auto; intros; apply C; auto; apply K; auto. }
  destruct (get_greatest_dict_val d qv) as [v|] eqn:E.
  - symmetry. apply version_lookup. apply version_lookup in E as (k & H1 & H2).
    exists k. rewrite <- Nw, <- D. auto.
  - symmetry. apply version_lookup. intros k Hk. apply K in Hk.
    apply (proj1 (proj2 (version_lookup d qv)) E k Hk).
Qed.

(** ** Derived forms used by the property files *)

Lemma clookup_no_match {V} (d : list (cond * V)) wc :
  NoDup wc -> distinct_sets (map fst d) ->
  (forall k, In k (map fst d) -> ~ incl k wc) ->
  (forall k, In k (map fst d) -> ~ same_set [""] k) ->
  clookup d wc = Err KeyError.
Proof.
  intros N D F G. destruct (clookup_spec d wc N D) as [(k & v & I & B & _)|(_ & ->)].
  - exfalso. apply (F k); [apply in_map_iff; exists (k, v); auto|]. destruct B as (_ & _ & _ & J & _). exact J.
  - apply cget_none in G. rewrite G. reflexivity.
Qed.

Lemma tuple_total {A} (d : dict (list A)) (m : modifier) :
  NoDup (sm_cond m) -> In "" (dkeys d) ->
  exists s v, In (s, v) d /\ incl (canonicalize s) (sm_cond m)
    /\ tspec_get (TDict (canonicalize_dict d)) m = Ok v.
Proof.
  intros N H. cbn [tspec_get].
  destruct (clookup_spec (canonicalize_dict d) (sm_cond m) N (canonicalize_dict_distinct d))
    as [(k & v & I & B & E)|(F & _)].
  - destruct (canonicalize_dict d) as [|e l] eqn:C; [destruct I|]. rewrite <- C in I.
    apply canonicalize_dict_in in I as (s & I & S). exists s, v. split; [exact I|]. split; [|exact E].
    destruct B as (_ & _ & _ & Ik & _). intros x Hx. apply Ik. apply S. exact Hx.
  - exfalso. apply canonicalize_dict_has in H as (k & v & I & S).
    apply (F k); [apply in_map_iff; exists (k, v); auto|].
    intros x Hx. apply S in Hx. destruct Hx.
Qed.

Lemma modifiers_nodup c0 cs :
  NoDup (sm_cond (fold_left (fun m (ac : bool * string) =>
     if fst ac then add_to_condition m (snd ac) else remove_from_condition m (snd ac)) cs (modifier_with c0))).
Proof.
  assert (N0 : NoDup (sm_cond (modifier_with c0))) by apply canonicalize_nodup.
  revert N0. generalize (modifier_with c0). induction cs as [|[b c] cs IH]; intros m N; cbn [fold_left]; [exact N|].
  apply IH. cbn [fst snd]. destruct b; [apply add_to_condition_nodup, N|].
  cbn [remove_from_condition set_cond sm_cond]. unfold sremove. apply NoDup_filter, N.
Qed.

Fixpoint distinct_setsb (l : list (list string)) : bool :=
  match l with
  | [] => true
  | k :: l' => (Nat.eqb (List.length (nodup string_dec k)) (List.length k))
               && forallb (fun k' => negb (cond_eqb k k')) l' && distinct_setsb l'
  end.
Lemma nodup_length_eq (k : list string) : List.length (nodup string_dec k) = List.length k -> NoDup k.
Proof.
  induction k as [|x k IH]; cbn; [constructor|]. 
  assert (L : (List.length (nodup string_dec k) <= List.length k)%nat).
  { clear. induction k; cbn; [lia|]. destruct (in_dec string_dec a k); cbn; lia. }
  destruct (in_dec string_dec x k); cbn; intros E; [lia|]. constructor; [assumption | apply IH; lia].
Qed.
Lemma distinct_sets_dec l : distinct_setsb l = true -> distinct_sets l.
Proof.
  induction l as [|k l IH]; cbn; [constructor|]. rewrite !andb_true_iff. intros [[H1 H2] H3].
  constructor; [apply nodup_length_eq, Nat.eqb_eq, H1 | | auto].
  intros k' Hk' S. rewrite forallb_forall in H2. specialize (H2 k' Hk').
  apply cond_eqb_spec in S. rewrite S in H2. discriminate.
Qed.
Lemma string_decomposes s :
  exists ps, s = String.concat "," ps /\ ps <> [] /\ forall p, In p ps -> comma_free p.
Proof.
  exists (split_comma s). destruct (split_spec s) as [E F]. split; [auto|]. split; [apply split_comma_ne | exact F].
Qed.
