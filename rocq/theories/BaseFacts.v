(** * Facts about the basic vocabulary of Base.v *)

From Coq Require Import ZArith List String Ascii Bool Lia Permutation Sorted Morphisms.
From Coq Require Import ZifyBool ZifyNat ZifyN.
From Verif Require Import Base.
Import ListNotations.
Open Scope Z_scope.

(** ** The error monad *)

Lemma bind_ok {A B} (m : res A) (f : A -> res B) b :
  bind m f = Ok b -> exists a, m = Ok a /\ f a = Ok b.
Proof. destruct m; cbn; intros H; [eauto | discriminate]. Qed.

Ltac inv_bind H :=
  let a := fresh "a" in let H1 := fresh "E" in
  apply bind_ok in H; destruct H as (a & H1 & H).

(** Repeatedly invert [bind .. = Ok ..] hypotheses, destructing pairs. *)
Ltac inv_ok :=
  repeat match goal with
    | H : bind _ _ = Ok _ |- _ =>
        let a := fresh "x" in let H1 := fresh "E" in
        apply bind_ok in H; destruct H as (a & H1 & H); cbn beta iota in H
    | H : (let (_, _) := ?p in _) = Ok _ |- _ => destruct p eqn:?; cbn beta iota in H
    | H : Ok _ = Ok _ |- _ => injection H as H; try subst
    | H : Err _ = Ok _ |- _ => discriminate H
    | p : (_ * _)%type |- _ => destruct p
    end.

Lemma foldM_app {A S} (f : S -> A -> res S) l1 l2 s :
  foldM f (l1 ++ l2) s = bind (foldM f l1 s) (foldM f l2).
Proof.
  revert s; induction l1 as [|a l1 IH]; intros s; cbn; [reflexivity|].
  destruct (f s a); cbn; [apply IH | reflexivity].
Qed.

Lemma foldM_inv {A S} (f : S -> A -> res S) (P : S -> Prop) l s s' :
  P s ->
  (forall s a s', In a l -> P s -> f s a = Ok s' -> P s') ->
  foldM f l s = Ok s' -> P s'.
Proof.
  revert s; induction l as [|a l IH]; intros s Hs Hf; cbn; intros H.
  - injection H as <-; exact Hs.
  - apply bind_ok in H; destruct H as (s1 & H1 & H).
    apply (IH s1); [| |exact H].
    + apply (Hf s a s1); auto with datatypes.
    + intros t b t' Hb; apply Hf; right; exact Hb.
Qed.

(** A loop with invariant [P], indexed by the processed prefix. *)
Lemma foldM_inv_prefix {A S} (f : S -> A -> res S) (P : list A -> S -> Prop) l s s' :
  P [] s ->
  (forall pre a post s s', l = pre ++ a :: post -> P pre s -> f s a = Ok s' -> P (pre ++ [a]) s') ->
  foldM f l s = Ok s' -> P l s'.
Proof.
  intros H0 Hf.
  assert (G : forall post pre s, l = pre ++ post -> P pre s -> foldM f post s = Ok s' -> P l s').
  { induction post as [|a post IH]; intros pre s1 E HP; cbn; intros H.
    - injection H as <-. rewrite app_nil_r in E; subst; exact HP.
    - apply bind_ok in H; destruct H as (s2 & H1 & H).
      apply (IH (pre ++ [a]) s2); [rewrite <- app_assoc; exact E | | exact H].
      eapply Hf; eauto. }
  intros H; eapply (G l []); eauto.
Qed.

Lemma foldM_total {A S} (f : S -> A -> res S) (P : S -> Prop) l s :
  P s ->
  (forall s a, In a l -> P s -> exists s', f s a = Ok s' /\ P s') ->
  exists s', foldM f l s = Ok s' /\ P s'.
Proof.
  revert s; induction l as [|a l IH]; intros s Hs Hf; cbn.
  - eauto.
  - destruct (Hf s a) as (s1 & -> & H1); auto with datatypes; cbn.
    apply IH; auto with datatypes.
Qed.

Lemma foldM_ok_map {A S} (f : S -> A -> S) l s :
  foldM (fun s a => Ok (f s a)) l s = Ok (fold_left f l s).
Proof. revert s; induction l as [|a l IH]; intros s; cbn; [reflexivity | apply IH]. Qed.

Lemma foldM_ext {A S} (f g : S -> A -> res S) l s :
  (forall s a, In a l -> f s a = g s a) -> foldM f l s = foldM g l s.
Proof.
  revert s; induction l as [|a l IH]; intros s H; cbn; [reflexivity|].
  rewrite (H s a) by auto with datatypes.
  destruct (g s a); cbn; [apply IH; auto with datatypes | reflexivity].
Qed.

Lemma mapM_ok_length {A B} (f : A -> res B) l l' : mapM f l = Ok l' -> List.length l' = List.length l.
Proof.
  revert l'; induction l as [|a l IH]; intros l'; cbn; intros H.
  - injection H as <-; reflexivity.
  - inv_bind H. inv_bind H. injection H as <-. cbn. f_equal. auto.
Qed.

Lemma mapM_forall2 {A B} (f : A -> res B) l l' :
  mapM f l = Ok l' -> Forall2 (fun a b => f a = Ok b) l l'.
Proof.
  revert l'; induction l as [|a l IH]; intros l'; cbn; intros H.
  - injection H as <-; constructor.
  - inv_bind H. inv_bind H. injection H as <-. constructor; auto.
Qed.

Lemma mapM_total {A B} (f : A -> res B) l :
  (forall a, In a l -> exists b, f a = Ok b) -> exists l', mapM f l = Ok l'.
Proof.
  induction l as [|a l IH]; intros H; cbn; [eauto|].
  destruct (H a) as (b & ->); auto with datatypes; cbn.
  destruct IH as (l' & ->); auto with datatypes; cbn; eauto.
Qed.

(** ** Dicts *)

Lemma dget_dset_same {V} k (v : V) d : dget k (dset k v d) = Some v.
Proof.
  induction d as [|[k' v'] d IH]; cbn.
  - rewrite String.eqb_refl; reflexivity.
  - destruct (String.eqb k k') eqn:E; cbn; rewrite E; auto.
Qed.

Lemma dget_dset_other {V} k k' (v : V) d : k <> k' -> dget k (dset k' v d) = dget k d.
Proof.
  intros N; induction d as [|[k'' v'] d IH]; cbn.
  - destruct (String.eqb_spec k k'); congruence.
  - destruct (String.eqb_spec k' k''); cbn.
    + subst. destruct (String.eqb_spec k k''); congruence.
    + destruct (String.eqb k k''); auto.
Qed.

Lemma dget_dset {V} k k' (v : V) d :
  dget k (dset k' v d) = if String.eqb k k' then Some v else dget k d.
Proof.
  destruct (String.eqb_spec k k').
  - subst; apply dget_dset_same.
  - apply dget_dset_other; assumption.
Qed.

Lemma dget_none_iff {V} k (d : dict V) : dget k d = None <-> ~ In k (dkeys d).
Proof.
  induction d as [|[k' v] d IH]; cbn; [tauto|].
  destruct (String.eqb_spec k k'); [subst; split; [discriminate | tauto] |].
  rewrite IH. intuition congruence.
Qed.

Lemma dget_in {V} k (v : V) d : dget k d = Some v -> In (k, v) d.
Proof.
  induction d as [|[k' v'] d IH]; cbn; [discriminate|].
  destruct (String.eqb_spec k k'); intros H.
  - injection H as ->; subst; auto.
  - auto.
Qed.

Lemma in_dget {V} k (v : V) d : NoDup (dkeys d) -> In (k, v) d -> dget k d = Some v.
Proof.
  induction d as [|[k' v'] d IH]; cbn; [tauto|].
  intros N H; inversion N as [|? ? N1 N2]; subst.
  destruct H as [E|H].
  - injection E as -> ->. rewrite String.eqb_refl; reflexivity.
  - destruct (String.eqb_spec k k'); [|auto].
    subst. exfalso; apply N1. apply in_map_iff; exists (k', v); auto.
Qed.

Lemma dmem_spec {V} k (d : dict V) : dmem k d = true <-> In k (dkeys d).
Proof.
  unfold dmem. destruct (dget k d) eqn:E.
  - split; [intros _ | reflexivity].
    apply dget_in in E. apply in_map_iff; exists (k, v); auto.
  - apply dget_none_iff in E. split; [discriminate | tauto].
Qed.

Lemma dkeys_dset {V} k (v : V) d :
  dkeys (dset k v d) = if dmem k d then dkeys d else dkeys d ++ [k].
Proof.
  unfold dmem, dkeys; induction d as [|[k' v'] d IH]; cbn; [reflexivity|].
  destruct (String.eqb_spec k k'); cbn.
  - reflexivity.
  - rewrite IH. destruct (dget k d); reflexivity.
Qed.

Lemma dset_nodup {V} k (v : V) d : NoDup (dkeys d) -> NoDup (dkeys (dset k v d)).
Proof.
  intros N. rewrite dkeys_dset. destruct (dmem k d) eqn:E; [exact N|].
  apply NoDup_rev in N. rewrite <- (rev_involutive (dkeys d ++ [k])).
  apply NoDup_rev. rewrite rev_app_distr; cbn. constructor; [|exact N].
  rewrite <- in_rev. intros H. apply dmem_spec in H. congruence.
Qed.

Lemma zget_zset {V} k k' (v : V) d : zget k (zset k' v d) = if k =? k' then Some v else zget k d.
Proof.
  induction d as [|[k'' v'] d IH]; cbn.
  - reflexivity.
  - destruct (Z.eqb_spec k' k''); cbn.
    + subst. destruct (Z.eqb_spec k k''); reflexivity.
    + rewrite IH. destruct (Z.eqb_spec k k''), (Z.eqb_spec k k'); try reflexivity; congruence.
Qed.

Lemma dget_map {V W} (f : string * V -> W) k (d : dict V) :
  dget k (map (fun kv => (fst kv, f kv)) d) = option_map (fun v => f (k, v)) (dget k d).
Proof.
  induction d as [|[k' v] d IH]; cbn; [reflexivity|].
  destruct (String.eqb_spec k k'); cbn; [subst; reflexivity | exact IH].
Qed.

Lemma dget_filter {V} (p : string * V -> bool) k (d : dict V) :
  NoDup (dkeys d) ->
  dget k (filter p d) = match dget k d with
                        | Some v => if p (k, v) then Some v else None
                        | None => None
                        end.
Proof.
  induction d as [|[k' v] d IH]; cbn; intros N; [reflexivity|].
  inversion N as [|? ? N1 N2]; subst.
  destruct (String.eqb_spec k k').
  - subst. destruct (p (k', v)) eqn:E; cbn; [rewrite String.eqb_refl; reflexivity|].
    apply dget_none_iff. intros H. apply N1.
    apply in_map_iff in H. destruct H as ([a b] & <- & H). apply filter_In in H.
    apply in_map_iff. exists (a, b); tauto.
  - destruct (p (k', v)) eqn:E; cbn.
    + destruct (String.eqb_spec k k'); [congruence | auto].
    + auto.
Qed.

Lemma filter_nodup_keys {V} (p : string * V -> bool) (d : dict V) :
  NoDup (dkeys d) -> NoDup (dkeys (filter p d)).
Proof.
  induction d as [|[k v] d IH]; cbn; intros N; [constructor|].
  inversion N as [|? ? N1 N2]; subst.
  destruct (p (k, v)); cbn; [constructor; [|auto]|auto].
  intros H; apply N1. apply in_map_iff in H. destruct H as ([a b] & <- & H).
  apply filter_In in H. apply in_map_iff; exists (a, b); tauto.
Qed.

(** ** Sets of strings as lists *)

Lemma smem_spec x l : smem x l = true <-> In x l.
Proof.
  unfold smem. rewrite existsb_exists. split.
  - intros (y & H & E). apply String.eqb_eq in E; subst; exact H.
  - intros H; exists x; rewrite String.eqb_refl; auto.
Qed.
Lemma smem_false x l : smem x l = false <-> ~ In x l.
Proof. rewrite <- smem_spec. destruct (smem x l); intuition congruence. Qed.

Lemma sadd_in x y l : In x (sadd y l) <-> x = y \/ In x l.
Proof.
  unfold sadd. destruct (smem y l) eqn:E.
  - apply smem_spec in E. intuition congruence.
  - rewrite in_app_iff. cbn. intuition.
Qed.
Lemma sadd_nodup y l : NoDup l -> NoDup (sadd y l).
Proof.
  intros N. unfold sadd. destruct (smem y l) eqn:E; [exact N|].
  apply smem_false in E. apply Permutation_NoDup with (y :: l).
  - apply Permutation_cons_append.
  - constructor; assumption.
Qed.
Lemma sremove_in x y l : In x (sremove y l) <-> In x l /\ x <> y.
Proof.
  unfold sremove. rewrite filter_In. destruct (String.eqb_spec y x); cbn; intuition congruence.
Qed.

(** ** String order *)

Lemma ascii_compare_N a b : Ascii.compare a b = N.compare (N_of_ascii a) (N_of_ascii b).
Proof. reflexivity. Qed.

Lemma str_compare_cons a s b s' :
  String.compare (String a s) (String b s') =
  match Ascii.compare a b with Eq => String.compare s s' | c => c end.
Proof. reflexivity. Qed.

Lemma str_compare_refl s : String.compare s s = Eq.
Proof.
  induction s as [|a s IH]; [reflexivity|].
  rewrite str_compare_cons, ascii_compare_N, N.compare_refl. exact IH.
Qed.

Lemma str_compare_trans s1 s2 s3 :
  String.compare s1 s2 = Lt -> String.compare s2 s3 = Lt -> String.compare s1 s3 = Lt.
Proof.
  revert s2 s3; induction s1 as [|a s1 IH]; destruct s2 as [|b s2], s3 as [|c s3];
    try discriminate; try reflexivity.
  rewrite !str_compare_cons, !ascii_compare_N.
  destruct (N.compare_spec (N_of_ascii a) (N_of_ascii b)) as [E1|E1|E1],
    (N.compare_spec (N_of_ascii b) (N_of_ascii c)) as [E2|E2|E2]; try discriminate;
    destruct (N.compare_spec (N_of_ascii a) (N_of_ascii c)) as [E3|E3|E3]; try lia; try reflexivity.
  apply IH.
Qed.

Lemma str_ltb_irrefl s : str_ltb s s = false.
Proof. unfold str_ltb. rewrite str_compare_refl; reflexivity. Qed.
Lemma str_ltb_trans a b c : str_ltb a b = true -> str_ltb b c = true -> str_ltb a c = true.
Proof.
  unfold str_ltb. destruct (String.compare a b) eqn:E1; try discriminate.
  destruct (String.compare b c) eqn:E2; try discriminate.
  rewrite (str_compare_trans _ _ _ E1 E2). reflexivity.
Qed.
Lemma str_ltb_total a b : str_ltb a b = false -> str_ltb b a = false -> a = b.
Proof.
  unfold str_ltb. rewrite (String.compare_antisym b a).
  destruct (String.compare a b) eqn:E; cbn; try discriminate.
  intros _ _. apply String.compare_eq_iff. exact E.
Qed.
Lemma str_ltb_asym a b : str_ltb a b = true -> str_ltb b a = false.
Proof.
  intros H. destruct (str_ltb b a) eqn:E; [|reflexivity].
  pose proof (str_ltb_trans _ _ _ H E) as F. rewrite str_ltb_irrefl in F. discriminate.
Qed.
(** negative transitivity *)
Lemma str_ltb_ntrans a b c : str_ltb a b = false -> str_ltb b c = false -> str_ltb a c = false.
Proof.
  intros H1 H2. destruct (str_ltb a c) eqn:E; [|reflexivity].
  destruct (str_ltb c b) eqn:E2.
  - rewrite (str_ltb_trans _ _ _ E E2) in H1; discriminate.
  - rewrite (str_ltb_total _ _ H2 E2) in *. congruence.
Qed.
Lemma str_leb_ltb a b : str_leb a b = negb (str_ltb b a).
Proof.
  unfold str_leb, str_ltb. rewrite (String.compare_antisym b a).
  destruct (String.compare a b); reflexivity.
Qed.

(** ** Sorting *)

Section SortFacts.
  Context {A : Type} (ltb : A -> A -> bool).
  Hypothesis ltb_asym : forall a b, ltb a b = true -> ltb b a = false.
  Hypothesis ltb_ntrans : forall a b c, ltb a b = false -> ltb b c = false -> ltb a c = false.

  (** [a] may stand before [b]. *)
  Definition ok_before (a b : A) : Prop := ltb b a = false.

  Lemma insert_lt_perm a l : Permutation (insert_lt ltb a l) (a :: l).
  Proof.
    induction l as [|b l IH]; cbn; [reflexivity|].
    destruct (ltb a b); [reflexivity|].
    rewrite IH. apply perm_swap.
  Qed.

  Lemma insert_lt_sorted a l :
    StronglySorted ok_before l -> StronglySorted ok_before (insert_lt ltb a l).
  Proof.
    induction l as [|b l IH]; cbn; intros S.
    - repeat constructor.
    - inversion S as [|? ? S1 S2]; subst.
      destruct (ltb a b) eqn:E.
      + constructor; [exact S|]. constructor; [apply ltb_asym; exact E|].
        rewrite Forall_forall in S2 |- *. intros x Hx.
        unfold ok_before in *. specialize (S2 x Hx).
        exact (ltb_ntrans x b a S2 (ltb_asym _ _ E)).
      + constructor; [auto|].
        rewrite Forall_forall in *. intros x Hx.
        apply (Permutation_in _ (insert_lt_perm a l)) in Hx.
        destruct Hx as [<-|Hx]; [exact E | auto].
  Qed.

  Lemma sort_lt_gen l acc :
    StronglySorted ok_before acc ->
    StronglySorted ok_before (fold_left (fun acc a => insert_lt ltb a acc) l acc)
    /\ Permutation (fold_left (fun acc a => insert_lt ltb a acc) l acc) (acc ++ l).
  Proof.
    revert acc; induction l as [|a l IH]; intros acc S; cbn.
    - rewrite app_nil_r; auto.
    - destruct (IH (insert_lt ltb a acc)) as [I1 I2]; [apply insert_lt_sorted; exact S|].
      split; [exact I1|].
      rewrite I2, insert_lt_perm. cbn. apply Permutation_middle.
  Qed.

  Lemma sort_lt_sorted l : StronglySorted ok_before (sort_lt ltb l).
  Proof. apply sort_lt_gen. constructor. Qed.

  Lemma sort_lt_perm l : Permutation (sort_lt ltb l) l.
  Proof. apply (sort_lt_gen l []). constructor. Qed.

  (** [p] does not separate elements of equal rank. *)
  Definition equiv (x a : A) : bool := negb (ltb x a) && negb (ltb a x).

  Lemma insert_lt_filter_other p a l :
    p a = false -> filter p (insert_lt ltb a l) = filter p l.
  Proof.
    intros P; induction l as [|b l IH]; cbn; [rewrite P; reflexivity|].
    destruct (ltb a b); cbn; [rewrite P; reflexivity | rewrite IH; reflexivity].
  Qed.

  Lemma insert_lt_filter_same x a l :
    equiv x a = true -> StronglySorted ok_before l ->
    filter (equiv x) (insert_lt ltb a l) = filter (equiv x) l ++ [a].
  Proof.
    intros P; induction l as [|b l IH]; cbn; intros S; [rewrite P; reflexivity|].
    inversion S as [|? ? S1 S2]; subst.
    destruct (ltb a b) eqn:E; cbn.
    - rewrite P.
      assert (H : forall y, In y (b :: l) -> equiv x y = false).
      { unfold equiv in *. intros y Hy.
        apply andb_prop in P. destruct P as [P1 P2].
        assert (ltb y a = false).
        { destruct Hy as [<-|Hy]; [auto|].
          rewrite Forall_forall in S2. exact (ltb_ntrans y b a (S2 y Hy) (ltb_asym _ _ E)). }
        assert (ltb a y = true).
        { destruct (ltb a y) eqn:F; [reflexivity|].
          exfalso. destruct Hy as [<-|Hy]; [congruence|].
          rewrite Forall_forall in S2. specialize (S2 y Hy). unfold ok_before in S2.
          rewrite (ltb_ntrans a y b F S2) in E. discriminate. }
        destruct (ltb x y) eqn:Fx; [reflexivity|]. exfalso.
        assert (ltb a y = false); [|congruence].
        apply (ltb_ntrans a x y); [|exact Fx].
        destruct (ltb a x); [discriminate | reflexivity]. }
      rewrite (H b) by (left; reflexivity).
      assert (F : filter (equiv x) l = []).
      { clear - H. induction l as [|c l IH]; [reflexivity|]. cbn.
        rewrite (H c) by auto with datatypes. apply IH. intros; apply H; cbn in *; tauto. }
      rewrite F. reflexivity.
    - rewrite IH by assumption. destruct (equiv x b); reflexivity.
  Qed.

  Lemma sort_lt_stable_gen x l acc :
    StronglySorted ok_before acc ->
    filter (equiv x) (fold_left (fun acc a => insert_lt ltb a acc) l acc)
    = filter (equiv x) acc ++ filter (equiv x) l.
  Proof.
    revert acc; induction l as [|a l IH]; intros acc S; cbn.
    - rewrite app_nil_r; reflexivity.
    - rewrite IH by (apply insert_lt_sorted; exact S).
      destruct (equiv x a) eqn:E.
      + rewrite insert_lt_filter_same by assumption. rewrite <- app_assoc. reflexivity.
      + rewrite insert_lt_filter_other by assumption. reflexivity.
  Qed.

  (** Stability: elements of equal rank keep their order. *)
  Lemma sort_lt_stable x l : filter (equiv x) (sort_lt ltb l) = filter (equiv x) l.
  Proof. apply (sort_lt_stable_gen x l []). constructor. Qed.

  Lemma insert_lt_last a l :
    (forall b, In b l -> ltb a b = false) -> insert_lt ltb a l = l ++ [a].
  Proof.
    induction l as [|b l IH]; cbn; intros H; [reflexivity|].
    rewrite H by auto. f_equal. auto.
  Qed.

  Lemma sort_lt_id l : StronglySorted ok_before l -> sort_lt ltb l = l.
  Proof.
    unfold sort_lt.
    assert (G : forall l acc, StronglySorted ok_before (acc ++ l) ->
               fold_left (fun acc a => insert_lt ltb a acc) l acc = acc ++ l).
    { clear l. induction l as [|a l IH]; intros acc S; cbn; [rewrite app_nil_r; reflexivity|].
      rewrite insert_lt_last.
      - rewrite IH; rewrite <- app_assoc; [reflexivity | exact S].
      - intros b Hb. clear IH. induction acc as [|c acc IHa]; [destruct Hb|].
        cbn in S. inversion S as [|? ? S1 S2]; subst.
        destruct Hb as [<-|Hb]; [|auto].
        rewrite Forall_forall in S2. apply S2. apply in_app_iff; right; left; reflexivity. }
    intros S. apply (G l []); exact S.
  Qed.
End SortFacts.

Section SortByFacts.
  Context {A : Type} (key : A -> Z).
  Let ltb (a b : A) := key a <? key b.

  Lemma by_asym a b : ltb a b = true -> ltb b a = false.
  Proof. unfold ltb; lia. Qed.
  Lemma by_ntrans a b c : ltb a b = false -> ltb b c = false -> ltb a c = false.
  Proof. unfold ltb; lia. Qed.

  Definition by_le (a b : A) : Prop := key a <= key b.

  Lemma sort_by_perm l : Permutation (sort_by key l) l.
  Proof. exact (sort_lt_perm ltb by_asym by_ntrans l). Qed.

  Lemma sort_by_sorted l : StronglySorted by_le (sort_by key l).
  Proof.
    pose proof (sort_lt_sorted ltb by_asym by_ntrans l) as S.
    unfold sort_by. fold ltb. induction S as [|a l' S IH F]; constructor; [exact IH|].
    rewrite Forall_forall in *. intros b Hb. specialize (F b Hb).
    unfold ok_before, ltb, by_le in *. lia.
  Qed.

  Lemma sort_by_stable k l :
    filter (fun a => key a =? k) (sort_by key l) = filter (fun a => key a =? k) l.
  Proof.
    destruct (existsb (fun a => key a =? k) l) eqn:E.
    - apply existsb_exists in E. destruct E as (x & _ & Hx).
      pose proof (sort_lt_stable ltb by_asym by_ntrans x l) as S.
      assert (G : forall l, filter (fun a => key a =? k) l = filter (equiv ltb x) l).
      { intros l'. apply filter_ext. intros a. unfold equiv, ltb. lia. }
      rewrite !G. exact S.
    - assert (G : forall l, (forall a, In a l -> (key a =? k) = false) ->
                 filter (fun a => key a =? k) l = []).
      { induction l0 as [|a l0 IH]; intros H; [reflexivity|]. cbn.
        rewrite H by auto with datatypes. apply IH; auto with datatypes. }
      assert (H : forall a, In a l -> (key a =? k) = false).
      { intros a Ha. destruct (key a =? k) eqn:F; [|reflexivity].
        assert (existsb (fun a => key a =? k) l = true); [|congruence].
        apply existsb_exists; eauto. }
      rewrite (G l H). apply G. intros a Ha. apply H.
      apply (Permutation_in _ (sort_by_perm l)). exact Ha.
  Qed.

  Lemma sort_by_id l : StronglySorted by_le l -> sort_by key l = l.
  Proof.
    intros S. apply sort_lt_id.
    induction S as [|a l' S IH F]; constructor; [exact IH|].
    rewrite Forall_forall in *. intros b Hb. specialize (F b Hb).
    unfold ok_before, by_le in *. lia.
  Qed.
End SortByFacts.

Lemma sort_by_idem {A} (key : A -> Z) l : sort_by key (sort_by key l) = sort_by key l.
Proof. apply sort_by_id, sort_by_sorted. Qed.

Lemma StronglySorted_app {A} (R : A -> A -> Prop) l1 l2 :
  StronglySorted R (l1 ++ l2) <->
  StronglySorted R l1 /\ StronglySorted R l2 /\ forall a b, In a l1 -> In b l2 -> R a b.
Proof.
  induction l1 as [|x l1 IH]; cbn.
  - split; [intros S; repeat split; [constructor | exact S | tauto] | tauto].
  - split.
    + intros S; inversion S as [|? ? S1 S2]; subst. apply IH in S1.
      destruct S1 as (S1 & S3 & S4). rewrite Forall_forall in S2.
      repeat split; [constructor; [exact S1|] | exact S3 |].
      * rewrite Forall_forall; intros; apply S2, in_app_iff; auto.
      * intros a b [<-|Ha] Hb; [apply S2, in_app_iff; auto | auto].
    + intros (S1 & S2 & S3). inversion S1 as [|? ? S4 S5]; subst.
      constructor; [apply IH; repeat split; auto|].
      rewrite Forall_forall in *. intros b Hb. apply in_app_iff in Hb. destruct Hb; auto.
Qed.

(** A stable sort is determined: two sorted permutations with the same order of
    ties are equal. *)
Lemma sorted_stable_unique {A} (key : A -> Z) (l1 l2 : list A) :
  StronglySorted (by_le key) l1 -> StronglySorted (by_le key) l2 ->
  (forall k, filter (fun a => key a =? k) l1 = filter (fun a => key a =? k) l2) -> l1 = l2.
Proof.
  revert l2; induction l1 as [|a l1 IH]; intros l2 S1 S2 F.
  - destruct l2 as [|b l2]; [reflexivity|].
    specialize (F (key b)); cbn in F. rewrite Z.eqb_refl in F. discriminate.
  - destruct l2 as [|b l2].
    { specialize (F (key a)); cbn in F. rewrite Z.eqb_refl in F. discriminate. }
    inversion S1 as [|? ? S1a S1b]; inversion S2 as [|? ? S2a S2b]; subst.
    rewrite Forall_forall in S1b, S2b.
    assert (K : key a = key b).
    { assert (Ha : In a (b :: l2)).
      { assert (In a (filter (fun x => key x =? key a) (b :: l2))).
        { rewrite <- F. cbn. rewrite Z.eqb_refl. left; reflexivity. }
        apply filter_In in H; tauto. }
      assert (Hb : In b (a :: l1)).
      { assert (In b (filter (fun x => key x =? key b) (a :: l1))).
        { rewrite F. cbn. rewrite Z.eqb_refl. left; reflexivity. }
        apply filter_In in H; tauto. }
      unfold by_le in *.
      destruct Ha as [->|Ha]; [reflexivity|]. destruct Hb as [->|Hb]; [reflexivity|].
      pose proof (S1b _ Hb). pose proof (S2b _ Ha). lia. }
    assert (E : a = b).
    { specialize (F (key a)); cbn in F. rewrite K, Z.eqb_refl in F. congruence. }
    subst b. f_equal. apply IH; [assumption..|].
    intros k. specialize (F k). cbn in F. destruct (key a =? k); congruence.
Qed.

(** ** enumerate *)

Lemma enum_from_length {A} i (l : list A) : List.length (enum_from i l) = List.length l.
Proof. revert i; induction l; intros; cbn; auto. Qed.

Lemma enum_from_snd {A} i (l : list A) : map snd (enum_from i l) = l.
Proof. revert i; induction l; intros; cbn; f_equal; auto. Qed.

Lemma enum_from_in {A} i j (a : A) l :
  In (j, a) (enum_from i l) <-> i <= j /\ nth_error l (Z.to_nat (j - i)) = Some a.
Proof.
  revert i; induction l as [|x l IH]; intros i; cbn.
  - split; [tauto | intros [_ H]; destruct (Z.to_nat (j - i)); discriminate].
  - rewrite IH. split.
    + intros [E|[H1 H2]].
      * injection E as -> ->. rewrite Z.sub_diag; split; [lia | reflexivity].
      * split; [lia|]. replace (Z.to_nat (j - i)) with (S (Z.to_nat (j - (i + 1)))) by lia. exact H2.
    + intros [H1 H2]. destruct (Z.eq_dec i j) as [->|N].
      * rewrite Z.sub_diag in H2. cbn in H2. injection H2 as ->. auto.
      * right. split; [lia|].
        replace (Z.to_nat (j - i)) with (S (Z.to_nat (j - (i + 1)))) in H2 by lia. exact H2.
Qed.

Lemma enum_from_app {A} i (l1 l2 : list A) :
  enum_from i (l1 ++ l2) = enum_from i l1 ++ enum_from (i + Z.of_nat (List.length l1)) l2.
Proof.
  revert i; induction l1 as [|a l1 IH]; intros i.
  - cbn [app List.length enum_from]. rewrite Z.add_0_r. reflexivity.
  - cbn [app List.length enum_from]. rewrite IH.
    replace (i + 1 + Z.of_nat (List.length l1)) with (i + Z.of_nat (S (List.length l1))) by lia.
    reflexivity.
Qed.

(** ** Decidable equality tests *)

Lemma list_eqb_spec {A} (eqb : A -> A -> bool) (H : forall a b, eqb a b = true <-> a = b) l1 l2 :
  list_eqb eqb l1 l2 = true <-> l1 = l2.
Proof.
  revert l2; induction l1 as [|a l1 IH]; destruct l2 as [|b l2]; cbn; try (split; congruence).
  rewrite andb_true_iff, H, IH. split; [intros []; congruence | intros E; injection E; auto].
Qed.
