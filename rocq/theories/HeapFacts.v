(** * Correctness of the heapq model *)

From Coq Require Import List Arith Lia Permutation Sorted Bool.
From Coq Require Import ZifyNat ZifyBool.
From Verif Require Import Base BaseFacts Heap.
Import ListNotations.

Lemma upd_length {A} (l : list A) i x : length (upd l i x) = length l.
Proof. revert i; induction l; intros [|i]; cbn; auto. Qed.

Lemma nth_error_upd {A} (l : list A) i j x :
  nth_error (upd l i x) j = if Nat.eqb i j then (if Nat.ltb i (length l) then Some x else None)
                            else nth_error l j.
Proof.
  revert i j; induction l as [|a l IH]; intros [|i] [|j]; cbn; try reflexivity.
  - destruct (Nat.eqb i j); reflexivity.
  - rewrite IH. reflexivity.
Qed.

Lemma upd_head_perm {A} (t : list A) j x y :
  nth_error t j = Some y -> Permutation (x :: t) (y :: upd t j x).
Proof.
  revert j; induction t as [|a t IH]; intros [|j]; cbn; try discriminate.
  - intros E; injection E as ->. apply perm_swap.
  - intros E. rewrite perm_swap, (IH j E). apply perm_swap.
Qed.

Lemma swap_perm {A} (h : list A) i j x y :
  i <> j -> nth_error h i = Some x -> nth_error h j = Some y ->
  Permutation h (upd (upd h i y) j x).
Proof.
  revert i j; induction h as [|a h IH]; intros [|i] [|j] N; cbn; try discriminate; try congruence.
  - intros E; injection E as ->. apply upd_head_perm.
  - intros E1 E2; injection E2 as ->. apply upd_head_perm; assumption.
  - intros E1 E2. constructor. apply IH; [congruence | assumption..].
Qed.

Section HeapBasics.
  Context {A : Type} (lt : A -> A -> res bool).

  Definition par (i : nat) : nat := Nat.div2 (pred i).

  Lemma par_lt i : (0 < i -> par i < i)%nat.
  Proof. unfold par. destruct i; [lia|]. cbn [pred]. pose proof (Nat.div2_decr i i). lia. Qed.

  Lemma par_cases i p : (0 < i)%nat -> par i = p <-> (i = 2 * p + 1 \/ i = 2 * p + 2)%nat.
  Proof.
    unfold par. intros H. rewrite Nat.div2_div.
    pose proof (Nat.div_mod (pred i) 2). pose proof (Nat.mod_upper_bound (pred i) 2). lia.
  Qed.

  Lemma nth_error_lt (h : list A) i x : nth_error h i = Some x -> (i < length h)%nat.
  Proof. intros H. apply nth_error_Some. congruence. Qed.

  Lemma siftdown_perm fuel h pos h' : siftdown lt fuel h pos = Ok h' -> Permutation h h'.
  Proof.
    revert h pos; induction fuel as [|fuel IH]; intros h pos; cbn; [discriminate|].
    destruct pos as [|p]; [intros E; injection E as <-; reflexivity|].
    destruct (nth_error h (S p)) as [x|] eqn:Ex; [|discriminate].
    destruct (nth_error h (Nat.div2 p)) as [y|] eqn:Ey; [|discriminate].
    intros H. inv_bind H. destruct a.
    - apply IH in H. rewrite <- H. apply swap_perm; try assumption.
      pose proof (par_lt (S p)). unfold par in *. cbn [pred] in *. lia.
    - injection H as <-; reflexivity.
  Qed.

  Lemma siftup_leaf_perm fuel h pos h' pos' :
    siftup_leaf lt fuel h pos = Ok (h', pos') -> Permutation h h'.
  Proof.
    revert h pos; induction fuel as [|fuel IH]; intros h pos; cbn [siftup_leaf]; [discriminate|].
    destruct (nth_error h pos) as [x|] eqn:Ex; [|discriminate].
    destruct (nth_error h (2 * pos + 1)) as [lx|] eqn:El;
      [|intros H; injection H as <- <-; reflexivity].
    destruct (nth_error h (2 * pos + 2)) as [rx|] eqn:Er.
    - intros H. inv_bind H. destruct a; apply IH in H; rewrite <- H;
        apply swap_perm; (assumption || lia).
    - intros H. apply IH in H. rewrite <- H. apply swap_perm; (assumption || lia).
  Qed.

  Lemma heappush_perm h x h' : heappush lt h x = Ok h' -> Permutation (x :: h) h'.
  Proof.
    unfold heappush; intros H. apply siftdown_perm in H. rewrite <- H.
    apply Permutation_cons_append.
  Qed.

  Lemma removelast_perm (x : A) l d : Permutation (x :: l) (last (x :: l) d :: removelast (x :: l)).
  Proof.
    rewrite (app_removelast_last d) at 1 by discriminate.
    symmetry. apply Permutation_cons_append.
  Qed.

  Lemma nth_error_removelast (l : list A) i y :
    nth_error (removelast l) i = Some y -> nth_error l i = Some y.
  Proof.
    destruct l as [|a l]; [cbn; auto|]. intros H.
    rewrite (app_removelast_last a) by discriminate.
    rewrite nth_error_app1; [exact H|]. eapply nth_error_lt; exact H.
  Qed.

  (** ** Totality: the operations only fail when a comparison does *)

  Definition total_on (h : list A) : Prop :=
    forall a b, In a h -> In b h -> exists r, lt a b = Ok r.

  Lemma total_on_perm h h' : Permutation h h' -> total_on h -> total_on h'.
  Proof.
    intros P T a b Ha Hb. apply T; apply (Permutation_in _ (Permutation_sym P)); assumption.
  Qed.

  Lemma siftdown_total fuel h pos :
    total_on h -> (pos < length h)%nat -> (pos < fuel)%nat ->
    exists h', siftdown lt fuel h pos = Ok h'.
  Proof.
    revert h pos; induction fuel as [|fuel IH]; intros h pos T L F; [lia|].
    cbn. destruct pos as [|p]; [eauto|].
    pose proof (par_lt (S p) ltac:(lia)) as PL. unfold par in PL; cbn [pred] in PL.
    destruct (nth_error h (S p)) as [x|] eqn:Ex; [|apply nth_error_None in Ex; lia].
    destruct (nth_error h (Nat.div2 p)) as [y|] eqn:Ey; [|apply nth_error_None in Ey; lia].
    destruct (T x y) as [b ->]; [eapply nth_error_In; eassumption..|].
    cbn. destruct b; [|eauto]. apply IH.
    - eapply total_on_perm; [|exact T]. apply swap_perm; (assumption || lia).
    - rewrite !upd_length. lia.
    - lia.
  Qed.

  Lemma siftup_leaf_total fuel h pos :
    total_on h -> (pos < length h)%nat -> (length h <= pos + fuel)%nat ->
    exists h' pos', siftup_leaf lt fuel h pos = Ok (h', pos') /\ (pos' < length h)%nat.
  Proof.
    revert h pos; induction fuel as [|fuel IH]; intros h pos T L F; [lia|].
    cbn [siftup_leaf].
    destruct (nth_error h pos) as [x|] eqn:Ex; [|apply nth_error_None in Ex; lia].
    destruct (nth_error h (2 * pos + 1)) as [lx|] eqn:El; [|eauto].
    assert (Step : forall c cx, (pos < c)%nat -> nth_error h c = Some cx ->
              exists h' pos', siftup_leaf lt fuel (upd (upd h pos cx) c x) c = Ok (h', pos')
                              /\ (pos' < length h)%nat).
    { intros c cx Hc Ec. apply nth_error_lt in Ec as Lc.
      edestruct (IH (upd (upd h pos cx) c x) c) as (h' & p' & H1 & H2).
      - eapply total_on_perm; [|exact T]. apply swap_perm; (assumption || lia).
      - rewrite !upd_length; lia.
      - rewrite !upd_length; lia.
      - rewrite !upd_length in H2. eauto. }
    destruct (nth_error h (2 * pos + 2)) as [rx|] eqn:Er.
    - destruct (T lx rx) as [b ->]; [eapply nth_error_In; eassumption..|].
      cbn [bind]. destruct b; apply Step; (assumption || lia).
    - apply Step; (assumption || lia).
  Qed.

  Lemma heappush_total h x :
    total_on (x :: h) -> exists h', heappush lt h x = Ok h'.
  Proof.
    intros T. unfold heappush. apply siftdown_total.
    - eapply total_on_perm; [apply Permutation_cons_append | exact T].
    - rewrite app_length; cbn; lia.
    - lia.
  Qed.

  Lemma heappop_total h :
    total_on h -> h <> [] -> exists x h', heappop lt h = Ok (x, h').
  Proof.
    intros T N. destruct h as [|top t]; [congruence|].
    pose proof (removelast_perm top t top) as P.
    unfold heappop. destruct (removelast (top :: t)) as [|r rest] eqn:Er; [eauto|].
    set (z := last (top :: t) top) in *.
    assert (T1 : total_on (z :: rest)).
    { intros a b Ha Hb. apply T; apply (Permutation_in _ (Permutation_sym P)); cbn in *; tauto. }
    destruct (siftup_leaf_total (length (z :: rest)) (z :: rest) 0) as (h2 & pos & E & L);
      [exact T1 | cbn; lia | lia |].
    rewrite E. cbn [bind].
    pose proof (siftup_leaf_perm _ _ _ _ _ E) as P2.
    pose proof (Permutation_length P2) as L2.
    destruct (siftdown_total (length (z :: rest)) h2 pos) as (h3 & E3);
      [eapply total_on_perm; eassumption | lia | lia |].
    rewrite E3. cbn [bind]. eauto.
  Qed.

End HeapBasics.

Section HeapFacts.
  Context {A : Type} (lt : A -> A -> res bool) (le : A -> A -> Prop).
  Hypothesis le_refl : forall a, le a a.
  Hypothesis le_trans : forall a b c, le a b -> le b c -> le a c.
  Hypothesis lt_true : forall a b, lt a b = Ok true -> le a b.
  Hypothesis lt_false : forall a b, lt a b = Ok false -> le b a.

  Definition ord (h : list A) (i j : nat) : Prop :=
    forall x y, nth_error h i = Some x -> nth_error h j = Some y -> le x y.

  Definition is_heap (h : list A) : Prop := forall i, (0 < i)%nat -> ord h (par i) i.

  Definition inv_down (h : list A) (pos : nat) : Prop :=
    (forall i, (0 < i)%nat -> i <> pos -> ord h (par i) i)
    /\ (forall c, (0 < pos)%nat -> (0 < c)%nat -> par c = pos -> ord h (par pos) c).

  Definition inv_up (h : list A) (pos : nat) : Prop :=
    (forall i, (0 < i)%nat -> i <> pos -> par i <> pos -> ord h (par i) i)
    /\ (forall c, (0 < pos)%nat -> (0 < c)%nat -> par c = pos -> ord h (par pos) c).

  Lemma nth_swap (h : list A) i j x y k :
    i <> j -> nth_error h i = Some x -> nth_error h j = Some y ->
    nth_error (upd (upd h i y) j x) k =
    if Nat.eqb k j then Some x else if Nat.eqb k i then Some y else nth_error h k.
  Proof.
    intros N H1 H2. apply nth_error_lt in H1 as L1. apply nth_error_lt in H2 as L2.
    rewrite !nth_error_upd, upd_length.
    destruct (Nat.eqb_spec j k), (Nat.eqb_spec i k), (Nat.eqb_spec k j), (Nat.eqb_spec k i);
      try lia;
      destruct (Nat.ltb_spec i (length h)), (Nat.ltb_spec j (length h)); try lia; auto.
  Qed.

  Lemma siftdown_heap fuel h pos h' :
    inv_down h pos -> siftdown lt fuel h pos = Ok h' -> is_heap h'.
  Proof.
    revert h pos; induction fuel as [|fuel IH]; intros h pos [I1 I2]; cbn; [discriminate|].
    destruct pos as [|p].
    { intros E; injection E as <-. intros i Hi. apply I1; lia. }
    destruct (nth_error h (S p)) as [x|] eqn:Ex; [|discriminate].
    destruct (nth_error h (Nat.div2 p)) as [y|] eqn:Ey; [|discriminate].
    change (Nat.div2 p) with (par (S p)) in *.
    pose proof (par_lt (S p) ltac:(lia)) as PL.
    set (pos := S p) in *. set (pp := par pos) in *.
    assert (Pp : (0 < pos)%nat) by (subst pos; lia).
    clearbody pos. intros H. inv_bind H. destruct a.
    - apply lt_true in E. apply IH in H; [exact H|].
      split.
      + intros i Hi N u v. rewrite !(nth_swap h pos pp x y) by (assumption || lia).
        destruct (Nat.eqb_spec i pp); [lia|].
        destruct (Nat.eqb_spec i pos).
        * subst i. fold pp. rewrite Nat.eqb_refl. intros; congruence.
        * destruct (Nat.eqb_spec (par i) pp) as [Q|Q].
          -- intros Eu Ev. injection Eu as <-.
             apply le_trans with y; [exact E|].
             apply (I1 i Hi n0 y v); [rewrite Q; exact Ey | exact Ev].
          -- destruct (Nat.eqb_spec (par i) pos) as [R|R].
             ++ intros Eu Ev. injection Eu as <-.
                apply (I2 i Pp Hi R y v Ey Ev).
             ++ intros Eu Ev. exact (I1 i Hi n0 u v Eu Ev).
      + intros c Hp Hc Q u v. rewrite !(nth_swap h pos pp x y) by (assumption || lia).
        pose proof (par_lt pp Hp).
        destruct (Nat.eqb_spec (par pp) pp); [lia|].
        destruct (Nat.eqb_spec (par pp) pos); [lia|].
        pose proof (par_lt c Hc).
        destruct (Nat.eqb_spec c pp); [lia|].
        destruct (Nat.eqb_spec c pos).
        * intros Eu Ev. injection Ev as <-.
          apply (I1 pp Hp ltac:(lia) u y Eu Ey).
        * intros Eu Ev. apply le_trans with y.
          -- apply (I1 pp Hp ltac:(lia) u y Eu Ey).
          -- apply (I1 c Hc n2 y v); [rewrite Q; exact Ey | exact Ev].
    - injection H as <-. apply lt_false in E.
      intros i Hi. destruct (Nat.eq_dec i pos) as [->|N]; [|auto].
      intros u v Eu Ev. fold pp in Eu. congruence.
  Qed.

  Lemma inv_up_step h pos c x cx :
    inv_up h pos -> (0 < c)%nat -> par c = pos ->
    nth_error h pos = Some x -> nth_error h c = Some cx ->
    (forall d dx, (0 < d)%nat -> par d = pos -> nth_error h d = Some dx -> le cx dx) ->
    inv_up (upd (upd h pos cx) c x) c.
  Proof.
    intros [I1 I2] Hc Pc Ex Ec Min. pose proof (par_lt c Hc) as PL. rewrite Pc in PL.
    split.
    - intros i Hi N1 N2 u v. rewrite !(nth_swap h pos c x cx) by (assumption || lia).
      destruct (Nat.eqb_spec (par i) c); [lia|].
      destruct (Nat.eqb_spec i c); [lia|].
      destruct (Nat.eqb_spec i pos).
      + subst i. pose proof (par_lt pos Hi).
        destruct (Nat.eqb_spec (par pos) pos); [lia|].
        intros Eu Ev. injection Ev as <-. apply (I2 c Hi Hc Pc u cx Eu Ec).
      + destruct (Nat.eqb_spec (par i) pos) as [Q|Q].
        * intros Eu Ev. injection Eu as <-. apply (Min i v Hi Q Ev).
        * intros Eu Ev. apply (I1 i Hi n1 Q u v Eu Ev).
    - intros d _ Hd Pd u v. rewrite !(nth_swap h pos c x cx) by (assumption || lia).
      rewrite Pc, Nat.eqb_refl. pose proof (par_lt d Hd).
      destruct (Nat.eqb_spec pos c); [lia|].
      destruct (Nat.eqb_spec d c); [lia|].
      destruct (Nat.eqb_spec d pos); [lia|].
      intros Eu Ev. injection Eu as <-.
      apply (I1 d Hd n1 ltac:(lia) cx v); [rewrite Pd; exact Ec | exact Ev].
  Qed.

  Lemma siftup_leaf_inv fuel h pos h' pos' :
    inv_up h pos -> siftup_leaf lt fuel h pos = Ok (h', pos') -> inv_down h' pos'.
  Proof.
    revert h pos; induction fuel as [|fuel IH]; intros h pos I; cbn [siftup_leaf]; [discriminate|].
    destruct (nth_error h pos) as [x|] eqn:Ex; [|discriminate].
    assert (P1 : par (2 * pos + 1) = pos) by (apply par_cases; lia).
    assert (P2 : par (2 * pos + 2) = pos) by (apply par_cases; lia).
    destruct (nth_error h (2 * pos + 1)) as [lx|] eqn:El.
    - destruct (nth_error h (2 * pos + 2)) as [rx|] eqn:Er.
      + intros H. inv_bind H. destruct a; apply IH in H; try exact H;
          (apply inv_up_step; [exact I | lia | assumption..|]);
          intros d dx Hd Pd Ed; apply par_cases in Pd; try assumption;
          destruct Pd as [-> | ->];
          (rewrite El in Ed || rewrite Er in Ed); injection Ed as <-; auto.
      + intros H. apply IH in H; [exact H|].
        apply inv_up_step; [exact I | lia | assumption..|].
        intros d dx Hd Pd Ed; apply par_cases in Pd; try assumption.
        destruct Pd as [-> | ->]; [|congruence]. rewrite El in Ed; injection Ed as <-; auto.
    - intros H; injection H as <- <-. destruct I as [I1 I2].
      assert (L : (length h <= 2 * pos + 1)%nat) by (apply nth_error_None; exact El).
      assert (NC : forall c, (0 < c)%nat -> par c = pos -> nth_error h c = None).
      { intros c Hc Q. apply par_cases in Q; [|exact Hc]. apply nth_error_None. lia. }
      split.
      + intros i Hi N. destruct (Nat.eq_dec (par i) pos) as [Q|Q].
        * intros u v _ Ev. rewrite (NC i Hi Q) in Ev. discriminate.
        * apply I1; assumption.
      + intros c _ Hc Q u v _ Ev. rewrite (NC c Hc Q) in Ev. discriminate.
  Qed.

  Lemma is_heap_nil : is_heap [].
  Proof. intros i _ x y Hx. destruct (par i); discriminate. Qed.

  Lemma heappush_heap h x h' : is_heap h -> heappush lt h x = Ok h' -> is_heap h'.
  Proof.
    unfold heappush; intros I H. eapply siftdown_heap; [|exact H]. split.
    - intros i Hi N u v Eu Ev.
      assert (i < length h)%nat.
      { apply nth_error_lt in Ev. rewrite app_length in Ev; cbn in Ev. lia. }
      pose proof (par_lt i Hi).
      rewrite nth_error_app1 in Eu, Ev by lia. exact (I i Hi u v Eu Ev).
    - intros c Hp Hc Q u v _ Ev. pose proof (par_lt c Hc).
      apply nth_error_lt in Ev. rewrite app_length in Ev; cbn in Ev. lia.
  Qed.

  Lemma heap_min h x : is_heap h -> nth_error h 0 = Some x -> forall y, In y h -> le x y.
  Proof.
    intros I E y Hy. apply In_nth_error in Hy. destruct Hy as (i & Hi).
    revert y Hi. induction i as [i IH] using lt_wf_ind. intros y Hi.
    destruct (Nat.eq_dec i 0) as [->|N].
    - assert (x = y) by congruence. subst; apply le_refl.
    - pose proof (par_lt i ltac:(lia)) as P.
      destruct (nth_error h (par i)) as [z|] eqn:Ez.
      + apply le_trans with z; [apply (IH (par i)); assumption|].
        apply (I i ltac:(lia) z y Ez Hi).
      + apply nth_error_None in Ez. apply nth_error_lt in Hi. lia.
  Qed.

  Lemma heappop_spec h x h' :
    is_heap h -> heappop lt h = Ok (x, h') ->
    Permutation h (x :: h') /\ is_heap h' /\ (forall y, In y h -> le x y).
  Proof.
    destruct h as [|top t]; [discriminate|]. intros I H.
    pose proof (removelast_perm top t top) as P.
    unfold heappop in H. destruct (removelast (top :: t)) as [|r rest] eqn:Er.
    - injection H as <- <-. apply Permutation_length in P as L; cbn in L.
      destruct t; [|discriminate]. cbn.
      split; [reflexivity|]. split; [apply is_heap_nil|]. intros y [<-|[]]; apply le_refl.
    - assert (r = top).
      { pose proof (nth_error_removelast (top :: t) 0 r) as Hr. rewrite Er in Hr.
        specialize (Hr eq_refl). cbn in Hr. congruence. }
      subst r. set (z := last (top :: t) top) in *.
      inv_bind H. destruct a as [h2 pos]. inv_bind H. injection H as <- <-.
      assert (IU : inv_up (z :: rest) 0).
      { split; [|intros; lia]. intros i Hi _ N u v Eu Ev.
        apply (I i Hi u v); apply nth_error_removelast; rewrite Er.
        - destruct (par i); [congruence | exact Eu].
        - destruct i; [lia | exact Ev]. }
      split; [|split].
      + rewrite P. apply siftup_leaf_perm in E. apply siftdown_perm in E0.
        rewrite perm_swap. constructor. rewrite E. exact E0.
      + eapply siftdown_heap; [|exact E0]. eapply siftup_leaf_inv; [exact IU | exact E].
      + apply (heap_min _ top I). reflexivity.
  Qed.

  Lemma drain_spec fuel h l :
    is_heap h -> drain lt fuel h = Ok l -> Permutation h l /\ StronglySorted le l.
  Proof.
    revert h l; induction fuel as [|fuel IH]; intros h l I; destruct h as [|a h].
    - intros H; injection H as <-. split; [reflexivity | constructor].
    - discriminate.
    - intros H; injection H as <-. split; [reflexivity | constructor].
    - cbn [drain]. intros H. inv_bind H. destruct a0 as [x h']. inv_bind H. injection H as <-.
      apply heappop_spec in E; [|exact I]. destruct E as (P & I' & Min).
      apply IH in E0; [|exact I']. destruct E0 as [P' S].
      split; [rewrite P; constructor; exact P'|].
      constructor; [exact S|]. rewrite Forall_forall. intros y Hy. apply Min.
      apply (Permutation_in _ (Permutation_sym P)). right.
      apply (Permutation_in _ (Permutation_sym P')). exact Hy.
  Qed.

  Lemma drain_total fuel h :
    is_heap h -> total_on lt h -> (length h <= fuel)%nat -> exists l, drain lt fuel h = Ok l.
  Proof.
    revert h; induction fuel as [|fuel IH]; intros h I T L; destruct h as [|a h]; cbn [drain];
      try (eexists; reflexivity); [cbn in L; lia|].
    destruct (heappop_total lt (a :: h) T) as (x & h' & E); [discriminate|].
    rewrite E. cbn [bind]. apply heappop_spec in E; [|exact I]. destruct E as (P & I' & _).
    destruct (IH h') as (l & ->).
    - exact I'.
    - intros u v Hu Hv. apply T; apply (Permutation_in _ (Permutation_sym P)); right; assumption.
    - apply Permutation_length in P. cbn in *. lia.
    - cbn. eauto.
  Qed.
End HeapFacts.
