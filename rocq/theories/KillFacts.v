(** * Kill times (C40) *)

From Coq Require Import ZArith QArith Qround Qabs List String Bool Lia Lqa Permutation Sorted.
From Verif Require Import Base BaseFacts Float FloatFacts Strings Types Stats Library Events Rotation DamageBuild Damage KillTime
  SpecHit SpecKill HitFacts HitOutcomes SimFacts.
Import ListNotations.
Open Scope string_scope.
Open Scope Z_scope.
Local Opaque fl dec.

Definition total (j : nat) (rows : list (Z * list Q)) : Q := qsum (map (cell j) rows).
Lemma column_cells j rows : column j rows = map (cell j) rows.
Proof. reflexivity. Qed.
Lemma qsum_app l1 l2 : (qsum (l1 ++ l2)%list == qsum l1 + qsum l2)%Q.
Proof. unfold qsum. induction l1 as [|a l IH]; cbn [app fold_right]; [ring|]. rewrite IH. ring. Qed.
Lemma total_app j l1 l2 : (total j (l1 ++ l2)%list == total j l1 + total j l2)%Q.
Proof. unfold total. rewrite map_app. apply qsum_app. Qed.
Lemma qsum_perm l l' : Permutation l l' -> (qsum l == qsum l')%Q.
Proof. unfold qsum. induction 1; cbn [fold_right]; [reflexivity|rewrite IHPermutation; reflexivity|ring|]. etransitivity; eassumption. Qed.
Lemma filter_perm {A} (f : A -> bool) l l' : Permutation l l' -> Permutation (filter f l) (filter f l').
Proof.
  induction 1; cbn; auto.
  - destruct (f x); auto.
  - destruct (f x), (f y); auto. constructor.
  - eapply Permutation_trans; eassumption.
Qed.
Lemma dealt_perm j t l l' : Permutation l l' -> (dealt_by j t l == dealt_by j t l')%Q.
Proof. intros P. unfold dealt_by. apply qsum_perm, Permutation_map, filter_perm, P. Qed.

Lemma reach_some hp j rows : forall acc i k, first_reach hp acc i (column j rows) = Some k ->
  exists pre r post, rows = (pre ++ r :: post)%list /\ k = (i + List.length pre)%nat /\ (hp <= acc + total j (pre ++ [r])%list)%Q
    /\ forall pre' x post', pre = (pre' ++ x :: post')%list -> (acc + total j (pre' ++ [x])%list < hp)%Q.
Proof.
  induction rows as [|r rows IH]; intros acc i k H; cbn in H; [discriminate|]. destruct (Qle_bool hp _) eqn:E.
  - injection H as <-. exists [], r, rows. apply Qle_bool_iff in E. cbn. repeat split.
    + lia.
    + unfold total, qsum, cell. cbn. lra.
    + intros [|? ?]; discriminate.
  - apply Qle_bool_false in E. apply IH in H as (pre & r' & post & -> & -> & L & B). exists (r :: pre), r', post. repeat split.
    + cbn. lia.
    + cbn [app]. change (total j (r :: pre ++ [r'])%list) with (cell j r + total j (pre ++ [r'])%list)%Q. unfold cell at 1. lra.
    + intros [|y pre'] x post' [= -> Ep].
      * unfold total, qsum. cbn. fold (cell j x) in *. lra.
      * cbn [app]. change (total j (y :: pre' ++ [x])%list) with (cell j y + total j (pre' ++ [x])%list)%Q. specialize (B _ _ _ Ep). unfold cell at 1. lra.
Qed.
Lemma reach_none hp j rows : forall acc i, first_reach hp acc i (column j rows) = None ->
  forall pre' x post', rows = (pre' ++ x :: post')%list -> (acc + total j (pre' ++ [x])%list < hp)%Q.
Proof.
  induction rows as [|r rows IH]; intros acc i H pre' x post' E; [destruct pre'; discriminate|]. cbn in H.
  destruct (Qle_bool hp _) eqn:B; [discriminate|]. apply Qle_bool_false in B. destruct pre' as [|y pre']; injection E as -> E.
  - unfold total, qsum. cbn. unfold cell. lra.
  - specialize (IH _ _ H _ _ _ E). cbn [app]. change (total j (y :: pre' ++ [x])%list) with (cell j y + total j (pre' ++ [x])%list)%Q. unfold cell at 1. lra.
Qed.

Definition by_time (a b : Z * list Q) : Prop := fst a <= fst b.
Lemma sorted_split t rows : StronglySorted by_time rows -> exists l1 l2, rows = (l1 ++ l2)%list
  /\ filter (fun r => fst r <=? t) rows = l1 /\ (forall r, In r l1 -> fst r <= t) /\ forall r, In r l2 -> t < fst r.
Proof.
  induction 1 as [|r rows S IH F]; [exists [], []; cbn; tauto|]. rewrite Forall_forall in F. cbn. destruct (fst r <=? t) eqn:E.
  - destruct IH as (l1 & l2 & -> & Ef & A & B). exists (r :: l1), l2. rewrite Ef. apply Z.leb_le in E. repeat split; auto.
    intros r' [<-|I]; auto.
  - apply Z.leb_gt in E. exists [], (r :: rows). repeat split.
    + clear IH. induction rows as [|a rows IHr]; [reflexivity|]. cbn. pose proof (F a (or_introl eq_refl)) as La. unfold by_time in La.
      destruct (fst a <=? t) eqn:G; [apply Z.leb_le in G; lia|]. apply IHr; [inversion S; assumption|]. intros; apply F; right; assumption.
    + intros ? [].
    + intros r' [<-|I]; [exact E|]. specialize (F r' I). unfold by_time in F. lia.
Qed.
Lemma cell_nonneg rows j r : cells_nonneg rows -> In r rows -> (0 <= cell j r)%Q.
Proof.
  intros N I. unfold cell. destruct (nth_in_or_default j (snd r) 0%Q) as [K|K]; [apply (N r _ I K)|rewrite K; lra].
Qed.

Lemma dealt_prefix j t rows : StronglySorted by_time rows -> In t (map fst rows) ->
  exists pre' x post', rows = (pre' ++ x :: post')%list /\ (dealt_by j t rows == total j (pre' ++ [x])%list)%Q
    /\ fst x <= t /\ forall r, In r post' -> t < fst r.
Proof.
  intros S I. destruct (sorted_split t rows S) as (l1 & l2 & E & Ef & A & B). unfold dealt_by. rewrite Ef.
  destruct (exists_last (l := l1)) as (pre' & x & ->).
  { intros ->. cbn in E. subst l2. apply in_map_iff in I as (r & <- & I). specialize (B r I). lia. }
  exists pre', x, l2. rewrite <- app_assoc in E. cbn in E. split; [exact E|]. split; [reflexivity|]. split; [|exact B].
  apply A, in_or_app. right. left. reflexivity.
Qed.

Lemma app_split {A} (l1 a l2 b : list A) : (l1 ++ a = l2 ++ b)%list ->
  (exists w, l2 = (l1 ++ w)%list /\ a = (w ++ b)%list) \/ (exists y w, l1 = (l2 ++ y :: w)%list /\ b = (y :: w ++ a)%list).
Proof.
  revert l2. induction l1 as [|x l1 IH]; intros [|y l2] E.
  - left. exists []. auto.
  - left. cbn in E. subst a. exists (y :: l2). auto.
  - right. cbn in E. subst b. exists x, l1. auto.
  - injection E as <- E. apply IH in E as [(w & -> & ->)|(z & w & -> & ->)]; [left; exists w; auto|right; exists z, w; auto].
Qed.
Lemma sorted_before l1 x l2 y l3 : StronglySorted by_time (l1 ++ x :: l2 ++ y :: l3)%list -> fst x <= fst y.
Proof.
  induction l1 as [|a l1 IH]; cbn; intros S; inversion S as [|? ? S' F]; subst; [|auto].
  rewrite Forall_forall in F. apply F, in_or_app. right. left. reflexivity.
Qed.
Lemma fate_of_reach hp j rows : StronglySorted by_time rows -> cells_nonneg rows ->
  match first_reach hp 0 0 (column j rows) with
  | Some k => exists r, nth_error rows k = Some r /\ dies_at hp rows j (fst r)
  | None => survives hp rows j
  end.
Proof.
  intros S N. destruct (first_reach hp 0 0 (column j rows)) as [k|] eqn:E.
  - apply reach_some in E as (pre & r & post & ER & -> & L & B). exists r. subst rows.
    assert (Ir : In (fst r) (map fst (pre ++ r :: post)%list)) by (rewrite map_app; apply in_or_app; right; left; reflexivity).
    split; [cbn; rewrite nth_error_app2, Nat.sub_diag by lia; reflexivity|].
    split; [exact Ir|]. split.
    + destruct (dealt_prefix j (fst r) _ S Ir) as (pre' & x & post' & E' & D & _ & A).
      assert (X : exists w, (pre' ++ [x])%list = ((pre ++ [r]) ++ w)%list).
      { assert (G : ((pre ++ [r]) ++ post = (pre' ++ [x]) ++ post')%list) by (rewrite <- !app_assoc; exact E').
        apply app_split in G as [(w & G & _)|(y & w & G & G')]; [exists w; exact G|]. exfalso.
        assert (Ip : In r post'). { rewrite G'. assert (Iy : In r (y :: w)); [|destruct Iy as [->|Iy]; [left; reflexivity|right; apply in_or_app; left; exact Iy]].
          apply (f_equal (@List.rev _)) in G. rewrite !rev_app_distr in G. cbn in G. destruct (rev w ++ [y])%list as [|z rest] eqn:R; [destruct (rev w); discriminate|].
          cbn in G. injection G as <- _. apply in_rev. cbn. rewrite R. left. reflexivity. }
        specialize (A r Ip). lia. }
      destruct X as (w & X). rewrite D, X, total_app. 
      assert (P : (0 <= total j w)%Q).
      { apply qsum_nonneg. intros y Iy. apply (cell_nonneg _ j y N). rewrite E'. apply in_or_app.
        assert (Y : In y (pre' ++ [x])%list) by (rewrite X; apply in_or_app; right; exact Iy).
        apply in_app_or in Y as [Y|[<-|[]]]; [left; exact Y|right; left; reflexivity]. }
      lra.
    + intros t' It Lt. destruct (dealt_prefix j t' _ S It) as (pre' & x & post' & E' & D & Lx & A). rewrite D.
      pose proof E' as G. apply app_split in G as [(w & -> & G)|(y & w & -> & G)].
      * (* r comes no later than x *) exfalso. destruct w as [|z w]; injection G as -> G; [lia|].
        subst post. pose proof (sorted_before pre z w x post' S). lia.
      * injection G as -> G. specialize (B pre' y w eq_refl). lra.
  - intros t It. destruct (dealt_prefix j t rows S It) as (pre' & x & post' & E' & D & _ & _). rewrite D.
    pose proof (reach_none hp j rows 0 0 E pre' x post' E') as H. lra.
Qed.

(** ** The report *)

Lemma fates_perm hp rows rows' n deaths : Permutation rows rows' -> fates hp rows n deaths -> fates hp rows' n deaths.
Proof.
  intros P (L & F). split; [exact L|]. intros j o H. specialize (F j o H).
  assert (PT : forall t, In t (map fst rows') <-> In t (map fst rows)).
  { intros t. split; apply Permutation_in, Permutation_map; [apply Permutation_sym|]; exact P. }
  destruct o as [t|]; cbn in *.
  - destruct F as (A & B & C). split; [apply PT, A|]. split; [rewrite <- (dealt_perm j t _ _ P); exact B|].
    intros t' I Lt. rewrite <- (dealt_perm j t' _ _ P). apply C; [apply PT, I|exact Lt].
  - intros t I. rewrite <- (dealt_perm j t _ _ P). apply F, PT, I.
Qed.

Definition death_of (hp : Q) (rows : list (Z * list Q)) (j : nat) : option Z :=
  match first_reach hp 0 0 (column j rows) with Some k => Some (fst (nth k rows (0, []))) | None => None end.
Lemma somes_map {A B} (f : A -> B) (l : list (option A)) :
  somes (map (option_map f) l) = map f (somes l).
Proof. unfold somes. induction l as [|[a|] l IH]; cbn; [reflexivity| |]; rewrite IH; reflexivity. Qed.
Lemma kill_times_reported hp n rows : kill_times hp n rows = reported (map (death_of hp rows) (seq 0 n)).
Proof.
  unfold kill_times, reported. set (idx := map (fun j => first_reach hp 0 0 (column j rows)) (seq 0 n)).
  assert (E : map (death_of hp rows) (seq 0 n) = map (option_map (fun k => fst (nth k rows (0, [])))) idx).
  { unfold idx. rewrite map_map. apply map_ext. intros j. unfold death_of. destruct (first_reach _ _ _ _); reflexivity. }
  assert (L : List.length idx = n) by (unfold idx; rewrite map_length; apply seq_length).
  rewrite E, somes_map. fold (somes idx). clearbody idx. rewrite !map_length, L, map_map. reflexivity.
Qed.
Lemma kill_times_fates hp n rows : StronglySorted by_time rows -> cells_nonneg rows ->
  fates hp rows n (map (death_of hp rows) (seq 0 n)).
Proof.
  intros S N. split; [rewrite map_length; apply seq_length|]. intros j o H.
  assert (J : (j < n)%nat). { apply nth_some_lt in H. rewrite map_length, seq_length in H. exact H. }
  rewrite (map_nth_error _ j (seq 0 n) (d := j)) in H.
  2:{ rewrite (nth_error_nth' (seq 0 n) 0%nat) by (rewrite seq_length; exact J). rewrite seq_nth by exact J. reflexivity. }
  injection H as <-. pose proof (fate_of_reach hp j rows S N) as F. unfold fate, death_of.
  destruct (first_reach hp 0 0 (column j rows)) as [k|]; [|exact F]. destruct F as (r & E & F).
  rewrite (nth_error_nth _ _ _ E). exact F.
Qed.

Lemma somes_length {A} (l : list (option A)) : (List.length (somes l) <= List.length l)%nat.
Proof. unfold somes. induction l as [|[a|] l IH]; cbn; lia. Qed.
Lemma reported_length l : List.length (reported l) = List.length l.
Proof. unfold reported. rewrite app_length, map_length, repeat_length. pose proof (somes_length l). lia. Qed.

(** np.argsort *)
Lemma reorder_seq {A} (l : list A) : reorder l (seq 0 (List.length l)) = l.
Proof.
  unfold reorder. rewrite <- map_map with (f := nth_error l) (g := fun o => match o with Some a => [a] | None => [] end).
  assert (E : map (nth_error l) (seq 0 (List.length l)) = map Some l).
  { clear. induction l as [|a l IH]; [reflexivity|]. cbn. f_equal. rewrite <- seq_shift, map_map. exact IH. }
  rewrite E, map_map. clear. induction l as [|a l IH]; [reflexivity|]. cbn. rewrite IH. reflexivity.
Qed.
Lemma concat_perm {A} (l l' : list (list A)) : Permutation l l' -> Permutation (List.concat l) (List.concat l').
Proof.
  induction 1; cbn; auto.
  - apply Permutation_app_head. assumption.
  - rewrite !app_assoc. apply Permutation_app_tail, Permutation_app_comm.
  - eapply Permutation_trans; eassumption.
Qed.
Lemma reorder_perm {A} (l : list A) o : Permutation o (seq 0 (List.length l)) -> Permutation (reorder l o) l.
Proof.
  intros P. rewrite <- (reorder_seq l) at 2. unfold reorder. apply concat_perm, Permutation_map, P.
Qed.
Lemma reorder_fst (l : list (Z * list Q)) o : (forall i, In i o -> (i < List.length l)%nat) ->
  map fst (reorder l o) = map (fun i => nth i (map fst l) 0) o.
Proof.
  unfold reorder. induction o as [|i o IH]; intros H; [reflexivity|]. cbn.
  destruct (nth_of_lt l i (H i (or_introl eq_refl))) as (a & E). rewrite E. cbn. rewrite IH by (intros; apply H; right; assumption).
  f_equal. symmetry. apply nth_error_nth. rewrite nth_error_map, E. reflexivity.
Qed.
Lemma sorted_fst rows : StronglySorted Z.le (map fst rows) -> StronglySorted by_time rows.
Proof.
  induction rows as [|r rows IH]; cbn; intros S; constructor; inversion S as [|? ? S' F]; subst; [apply IH, S'|].
  rewrite Forall_forall in *. intros x I. apply F, in_map, I.
Qed.
Lemma reorder_sorted argsort rows : sorts argsort -> 
  Permutation (reorder rows (argsort (map fst rows))) rows /\ StronglySorted by_time (reorder rows (argsort (map fst rows))).
Proof.
  intros A. destruct (A (map fst rows)) as [P S]. rewrite map_length in P. split; [apply reorder_perm, P|].
  apply sorted_fst. rewrite reorder_fst; [exact S|]. intros i I. apply (Permutation_in _ P) in I. apply in_seq in I. lia.
Qed.

Lemma estimate_ok hp rots n argsort ks : estimate_kill_time hp rots n argsort = Ok ks ->
  exists parts, mapM (fun bu => rotation_rows n (fst bu) (snd bu)) rots = Ok parts
    /\ ks = kill_times hp n (reorder (List.concat (map snd parts)) (argsort (map fst (List.concat (map snd parts))))).
Proof.
  unfold estimate_kill_time. destruct rots as [|bu rots]; [discriminate|]. intros H. apply bind_ok in H as (parts & E & H). injection H as <-. eauto.
Qed.
Lemma estimate_fates hp rots n argsort ks : sorts argsort -> estimate_kill_time hp rots n argsort = Ok ks ->
  exists parts, Forall2 (fun bu p => rotation_rows n (fst bu) (snd bu) = Ok p) rots parts
    /\ (cells_nonneg (List.concat (map snd parts)) ->
        exists deaths, fates hp (List.concat (map snd parts)) n deaths /\ ks = reported deaths).
Proof.
  intros A H. apply estimate_ok in H as (parts & E & ->). exists parts. split; [apply mapM_forall2, E|]. intros N.
  set (rows := List.concat (map snd parts)) in *. destruct (reorder_sorted argsort rows A) as [P S].
  eexists. split; [|apply kill_times_reported]. apply (fates_perm _ _ _ _ _ P), kill_times_fates; [exact S|].
  intros r x I. apply N, (Permutation_in _ P), I.
Qed.
Lemma estimate_length hp rots n argsort ks : estimate_kill_time hp rots n argsort = Ok ks -> List.length ks = n.
Proof.
  intros H. apply estimate_ok in H as (parts & E & ->). rewrite kill_times_reported, reported_length, map_length. apply seq_length.
Qed.

Lemma fates_later hp hp' rows n deaths deaths' : (hp <= hp')%Q -> fates hp rows n deaths -> fates hp' rows n deaths' ->
  Forall2 not_earlier deaths deaths'.
Proof.
  intros L (E & F) (E' & F'). rewrite <- E' in E. clear E' n.
  assert (G : forall j o o', nth_error deaths j = Some o -> nth_error deaths' j = Some o' -> not_earlier o o').
  { intros j o o' H H'. specialize (F j o H). specialize (F' j o' H'). destruct o as [t|], o' as [t'|]; cbn in *; auto.
    - destruct F as (_ & _ & B). destruct F' as (I & C & _). destruct (Z_le_gt_dec t t') as [K|K]; [exact K|].
      specialize (B t' I ltac:(lia)). lra.
    - destruct F' as (I & C & _). specialize (F t' I). lra. }
  clear F F'. revert deaths' E G. induction deaths as [|o l IH]; intros [|o' l'] E G; try discriminate; constructor.
  - apply (G 0%nat); reflexivity.
  - apply IH; [injection E; auto|]. intros j. apply (G (Datatypes.S j)).
Qed.
Lemma fates_unique hp rows n deaths deaths' : fates hp rows n deaths -> fates hp rows n deaths' -> deaths = deaths'.
Proof.
  intros A B. pose proof (fates_later hp hp rows n _ _ (Qle_refl hp) A B) as X. pose proof (fates_later hp hp rows n _ _ (Qle_refl hp) B A) as Y.
  clear A B. revert deaths' X Y. induction deaths as [|o l IH]; intros l' X Y; inversion X as [|? o' ? ? H1 H2]; subst; [reflexivity|].
  inversion Y as [|? ? ? ? H3 H4]; subst. f_equal; [|apply IH; assumption].
  destruct o as [t|], o' as [t'|]; cbn in *; try contradiction; [f_equal; lia|reflexivity].
Qed.

(** ** Damage is not negative *)

Lemma lb_nonneg cnd n u l : (forall j, (0 <= u j)%Q) -> get_lb_damage cnd n u = Ok l -> forall x, In x l -> (0 <= x)%Q.
Proof.
  intros U H x I. unfold get_lb_damage in H.
  assert (N : forall k, (0 <= fl (q (Z.of_N k)))%Q) by (intros k; apply fl_nonneg, q_nonneg; lia).
  assert (K : forall k l', l' = map (fun j => ffloor (fmul (fl (q (Z.of_N k))) (fadd (dec 95 100) (fmul (dec 1 10) (u j))))) (seq 0 n) -> In x l' -> (0 <= x)%Q).
  { intros k l' -> I'. apply in_map_iff in I' as (j & <- & _). apply ffloor_nonneg, fmul_nonneg; [apply N|].
    apply fadd_nonneg; [apply dec_nonneg; lia|]. apply fmul_nonneg; [apply dec_nonneg; lia|apply U]. }
  destruct (search_label "Mean Damage:" cnd) as [k|], (search_label "Exact Damage:" cnd) as [k'|]; try discriminate.
  - injection H as <-. apply (K k _ eq_refl I).
  - injection H as <-. apply (K k _ eq_refl I).
  - injection H as <-. apply repeat_spec in I as ->. apply N.
Qed.
Lemma mapM_i_in {A B} (f : nat -> A -> res B) l : forall i l', mapM_i f i l = Ok l' -> forall y, In y l' -> exists k x, In x l /\ f k x = Ok y.
Proof.
  induction l as [|a l IH]; intros i l' H y I; cbn in H.
  - injection H as <-. destruct I.
  - apply bind_ok in H as (b & Eb & H). apply bind_ok in H as (bs & Ebs & H). injection H as <-. destruct I as [<-|I].
    + exists i, a. split; [left; reflexivity|exact Eb].
    + destruct (IH _ _ Ebs y I) as (k & x & Ix & E). exists k, x. split; [right; exact Ix|exact E].
Qed.

Lemma in_combine_nth {A B} (l : list A) (l' : list B) x y : In (x, y) (combine l l') ->
  exists i, nth_error l i = Some x /\ nth_error l' i = Some y.
Proof.
  revert l'. induction l as [|a l IH]; intros [|b l'] I; try destruct I as [E|I]; try contradiction.
  - injection E as -> ->. exists 0%nat. auto.
  - destruct (IH l' I) as (i & A1 & A2). exists (Datatypes.S i). auto.
Qed.

Lemma rotation_cells_nonneg n b u b' rows g : stats_of g = Ok (b_stats b) -> (0 <= g_crit g)%Q -> hits_nonneg b -> draws_ok u ->
  rotation_rows n b u = Ok (b', rows) -> cells_nonneg rows.
Proof.
  intros G C HN (D1 & D2) H. unfold rotation_rows in H.
  apply bind_ok in H as (tk & Et & H). apply bind_ok in H as (b1 & Eb & H). apply bind_ok in H as ([[tk' qu'] insts] & Ei & H).
  apply bind_ok in H as (sim & Es & H). apply bind_ok in H as (rp & Er & H). apply bind_ok in H as (m & Em & H).
  apply bind_ok in H as (rs & Ers & H). injection H as <- <-. intros r x Ir Ix.
  destruct (mapM_i_in _ _ _ _ Ers r Ir) as (k & [inst cells] & Ic & E). cbv beta iota in E. apply bind_ok in E as (cells' & El & E). injection E as <-.
  cbn in Ix. unfold lb_row in El. destruct (contains "LB" (sk_name (di_skill inst))).
  - apply (lb_nonneg _ _ _ _ (D2 k) El x Ix).
  - injection El as <-. apply in_map_iff in Ix as ([[d crit] dh] & <- & Ix). cbn.
    destruct (in_combine_nth _ _ _ _ Ic) as (i & Ei1 & Ei2).
    destruct (sim_row_at _ _ _ _ _ Es Ei1) as (row & Erow & Hrow). destruct (cells_at _ _ _ _ Em) as (_ & K). rewrite (K i row Erow) in Ei2.
    injection Ei2 as <-. apply in_map_iff in Ix as (j & Ej & _).
    assert (NR : row_nonneg row).
    { apply (rows_nonneg g (b_stats b) inst row G C); [|exact Hrow]. pose proof (HN _ _ _ _ _ Et Eb Ei) as F. rewrite Forall_forall in F.
      apply F. destruct (sim_rows _ _ _ Es) as (Ss & _). rewrite Ss in Ei1. apply nth_error_In in Ei1. apply (sort_in _ _ _ Ei1). }
    apply (sample_nonneg row _ d crit dh NR (D1 i j) Ej).
Qed.
