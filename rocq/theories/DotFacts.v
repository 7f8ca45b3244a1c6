(** * Facts about damage over time *)

From Coq Require Import ZArith QArith Qround List String Bool Lia Lqa Permutation Sorted.
From Verif Require Import Base Float Heap Strings Types Lookup StatusEffect JobResource Combo
  Channeling Stats Library Events Rotation BaseFacts FloatFacts HeapFacts SpecQueue EventsFacts SpecPlay PlayFacts
  LogFacts SpecTimeline TimelineFacts SpecDots.
Import ListNotations.
Open Scope Z_scope.

(** ** Lists *)

Lemma NoDup_app_intro {A} (l1 l2 : list A) :
  NoDup l1 -> NoDup l2 -> (forall x, In x l1 -> In x l2 -> False) -> NoDup (l1 ++ l2).
Proof.
  induction 1 as [|a l1 N _ IH]; intros N2 D; cbn; [exact N2|]. constructor.
  - rewrite in_app_iff. intros [H|H]; [exact (N H) | apply (D a); [left; reflexivity | exact H]].
  - apply IH; [exact N2|]. intros x H1 H2. apply (D x); [right; exact H1 | exact H2].
Qed.
Lemma filter_none {A} (p : A -> bool) l : (forall x, In x l -> p x = false) -> filter p l = [].
Proof.
  induction l as [|a l IH]; intros H; cbn; [reflexivity|]. rewrite (H a (or_introl eq_refl)).
  apply IH. intros x Hx. apply H. right; exact Hx.
Qed.

(** ** Ranges *)

Lemma ticks_n_in n a step t : In t (ticks_n n a step) <-> exists j, 0 <= j < Z.of_nat n /\ t = a + step * j.
Proof.
  revert a; induction n as [|n IH]; intros a; cbn [ticks_n In].
  - split; [tauto | intros (j & H & _); lia].
  - rewrite IH. split.
    + intros [<-|(j & H & ->)]; [exists 0; lia | exists (j + 1); lia].
    + intros (j & H & ->). destruct (Z.eq_dec j 0) as [->|N]; [left; lia | right; exists (j - 1); lia].
Qed.
Lemma range_step_in a b step t :
  0 < step -> In t (range_step a b step) <-> (exists j, 0 <= j /\ t = a + step * j) /\ t < b.
Proof.
  intros S. unfold range_step. rewrite ticks_n_in.
  pose proof (Z.div_mod (b - a + step - 1) step ltac:(lia)) as D.
  pose proof (Z.mod_pos_bound (b - a + step - 1) step S) as M.
  set (k := (b - a + step - 1) / step) in *. split.
  - intros (j & H & ->). split; [exists j; lia|]. assert (j <= k - 1) by lia. nia.
  - intros ((j & H & ->) & L). exists j. split; [|reflexivity]. assert (j < k) by nia. lia.
Qed.
Lemma ticks_n_sorted n a step : 0 < step -> StronglySorted Z.lt (ticks_n n a step).
Proof.
  intros S. revert a; induction n as [|n IH]; intros a; cbn; constructor; [apply IH|].
  apply Forall_forall. intros x Hx. apply ticks_n_in in Hx as (j & H & ->). nia.
Qed.
Lemma range_step_sorted a b step : 0 < step -> StronglySorted Z.lt (range_step a b step).
Proof. intros S. apply ticks_n_sorted, S. Qed.

Lemma is_trailing_spec last t : is_trailing last t = true <-> trailing last t.
Proof.
  unfold is_trailing, trailing. destruct last as [l|].
  - rewrite andb_true_iff, negb_true_iff, Z.eqb_neq, Z.ltb_lt. split.
    + intros (A & B). exists l. auto.
    + intros (x & E & A & B). injection E as <-. auto.
  - split; [discriminate | intros (x & E & _); discriminate].
Qed.

(** ** Ticks as entries *)

Definition win_entry (w : dot_window) : dot_entry := let '(s, _, sn, pm) := w in (sn, s, pm).
Definition window_ticks (server : option Q) (last : option Z) (w : dot_window) : list (dot_entry * Z) :=
  let '(start, e, sn, pm) := w in
  map (fun t => ((sn, start, pm), t))
    (filter (fun t => negb (is_trailing last t)) (range_step (dot_first_tick server start) e 3000)).
Definition dot_ticks (server : option Q) (last : option Z) (dur : Z) (h : list dot_entry) : list (dot_entry * Z) :=
  flat_map (window_ticks server last) (consolidate (base_dot_timings dur h)).

Lemma tick_entries_app fu target l1 : forall n l2,
  tick_entries fu target n (l1 ++ l2)
  = (tick_entries fu target n l1 ++ tick_entries fu target (n + Z.of_nat (List.length l1)) l2)%list.
Proof.
  induction l1 as [|[e t] l1 IH]; intros n l2; cbn [tick_entries app List.length].
  - rewrite Z.add_0_r. reflexivity.
  - rewrite IH. do 3 f_equal. lia.
Qed.

Lemma add_tick_loop fu target last sn start pm ts : forall qu n,
  foldM (add_tick fu target last sn pm) ts (qu, n)
  = (let kept := map (fun t => ((sn, start, pm), t)) (filter (fun t => negb (is_trailing last t)) ts) in
     let* qu' := foldM api_add (tick_entries fu target n kept) qu in Ok (qu', n + Z.of_nat (List.length kept))).
Proof.
  cbv zeta. induction ts as [|t ts IH]; intros qu n; cbn [foldM filter map].
  - cbn. rewrite Z.add_0_r. reflexivity.
  - unfold add_tick at 1. destruct (is_trailing last t); cbn [negb].
    + cbn [bind]. apply IH.
    + cbn [map tick_entries foldM List.length]. unfold q_add_new. rewrite q_add_eq. unfold time_to_prio.
      unfold tick_entry, plain_add, app_snapshot, app_number. cbn [fst snd].
      match goal with |- context [api_add qu ?c] => destruct (api_add_total qu c) as (q1 & Q1); rewrite Q1 end.
      cbn [bind]. rewrite IH.
      match goal with |- context [foldM api_add ?l q1] => destruct (foldM api_add l q1) end; cbn [bind]; [|reflexivity].
      do 2 f_equal. lia.
Qed.
Lemma add_windows_loop server fu target last ws : forall qu n,
  foldM (add_dot_window server fu target last) ws (qu, n)
  = (let ticks := flat_map (window_ticks server last) ws in
     let* qu' := foldM api_add (tick_entries fu target n ticks) qu in Ok (qu', n + Z.of_nat (List.length ticks))).
Proof.
  cbv zeta. induction ws as [|w ws IH]; intros qu n; cbn [foldM flat_map].
  - cbn. rewrite Z.add_0_r. reflexivity.
  - unfold add_dot_window at 1. destruct w as [[[start e] sn] pm]. rewrite (add_tick_loop _ _ _ _ start). cbv zeta.
    unfold DOT_TICK_INTERVAL.
    match goal with |- context [map ?f ?x] => change (map f x) with (window_ticks server last (start, e, sn, pm)) end.
    set (k := window_ticks server last (start, e, sn, pm)). rewrite tick_entries_app, foldM_app.
    destruct (foldM api_add (tick_entries fu target n k) qu) as [q1|e1]; [|reflexivity]. cbn [bind]. rewrite IH.
    destruct (foldM api_add _ q1); [|reflexivity]. cbn [bind]. rewrite app_length. do 2 f_equal. rewrite Nat2Z.inj_add, Z.add_assoc. reflexivity.
Qed.
Lemma add_dot_eq server target last qu fu h :
  add_dot server target last qu (fu, h)
  = (let* dur := of_option TypeError (fu_dot fu) in
     foldM api_add (tick_entries fu target 0 (dot_ticks server last dur h)) qu).
Proof.
  unfold add_dot. destruct (fu_dot fu) as [dur|]; [|reflexivity]. cbn [of_option bind].
  rewrite add_windows_loop. cbv zeta. fold (dot_ticks server last dur h).
  destruct (foldM api_add _ qu); reflexivity.
Qed.

(** ** Sorting applications *)

Definition idx_le (x y : nat * dot_entry) : Prop := superseded_by (fst x) (app_time (snd x)) (fst y) (app_time (snd y)).

Fixpoint index_from {A} (i : nat) (l : list A) : list (nat * A) :=
  match l with [] => [] | a :: l' => (i, a) :: index_from (S i) l' end.
Lemma index_from_in {A} i (l : list A) j a :
  In (j, a) (index_from i l) <-> exists k, j = (i + k)%nat /\ nth_error l k = Some a.
Proof.
  revert i; induction l as [|b l IH]; intros i; cbn [index_from In].
  - split; [tauto|]. intros (k & _ & H). destruct k; discriminate.
  - rewrite IH. split.
    + intros [E|(k & -> & H)]; [injection E as <- <-; exists 0%nat; split; [lia | reflexivity]|].
      exists (S k). split; [lia | exact H].
    + intros ([|k] & -> & H); cbn in H; [left; injection H as <-; f_equal; lia|].
      right. exists k. split; [lia | exact H].
Qed.
Lemma index_from_snd {A} i (l : list A) : map snd (index_from i l) = l.
Proof. revert i; induction l as [|a l IH]; intros i; cbn; [|rewrite IH]; reflexivity. Qed.

Lemma insert_lex (f : dot_entry -> Z) x acc :
  StronglySorted (fun x y => superseded_by (fst x) (f (snd x)) (fst y) (f (snd y))) acc ->
  (forall y, In y acc -> (fst y < fst x)%nat) ->
  StronglySorted (fun x y => superseded_by (fst x) (f (snd x)) (fst y) (f (snd y)))
    (insert_lt (fun a b => f (snd a) <? f (snd b)) x acc).
Proof.
  intros S L. induction acc as [|y acc IH]; cbn; [repeat constructor|].
  inversion S as [|? ? S' F]; subst. rewrite Forall_forall in F.
  destruct (Z.ltb_spec (f (snd x)) (f (snd y))) as [C|C].
  - constructor; [exact S|]. constructor; [left; exact C|]. apply Forall_forall. intros z Hz.
    specialize (F z Hz). unfold superseded_by in *. lia.
  - constructor; [apply IH; [exact S' | intros; apply L; right; assumption]|].
    apply Forall_forall. intros z Hz.
    apply (Permutation_in _ (insert_lt_perm _ _ _)) in Hz. destruct Hz as [<-|Hz]; [|apply F, Hz].
    specialize (L y (or_introl eq_refl)). unfold superseded_by. lia.
Qed.
Lemma sort_lex (f : dot_entry -> Z) l : forall i acc,
  StronglySorted (fun x y => superseded_by (fst x) (f (snd x)) (fst y) (f (snd y))) acc ->
  (forall y, In y acc -> (fst y < i)%nat) ->
  StronglySorted (fun x y => superseded_by (fst x) (f (snd x)) (fst y) (f (snd y)))
    (fold_left (fun acc a => insert_lt (fun a b => f (snd a) <? f (snd b)) a acc) (index_from i l) acc).
Proof.
  induction l as [|a l IH]; intros i acc S L; cbn [index_from fold_left]; [exact S|].
  apply IH.
  - apply insert_lex; [exact S | intros y Hy; cbn; apply L, Hy].
  - intros y Hy. apply (Permutation_in _ (insert_lt_perm _ _ _)) in Hy. destruct Hy as [<-|Hy]; [cbn; lia|].
    specialize (L y Hy). lia.
Qed.

Lemma insert_map {A B} (g : A -> B) (lt1 : A -> A -> bool) (lt2 : B -> B -> bool) x acc :
  (forall a b, lt1 a b = lt2 (g a) (g b)) ->
  map g (insert_lt lt1 x acc) = insert_lt lt2 (g x) (map g acc).
Proof.
  intros H. induction acc as [|y acc IH]; cbn; [reflexivity|]. rewrite <- H.
  destruct (lt1 x y); cbn; [reflexivity | rewrite IH; reflexivity].
Qed.
Lemma sort_map {A B} (g : A -> B) (lt1 : A -> A -> bool) (lt2 : B -> B -> bool) l :
  (forall a b, lt1 a b = lt2 (g a) (g b)) -> map g (sort_lt lt1 l) = sort_lt lt2 (map g l).
Proof.
  intros H. unfold sort_lt. change (@nil B) with (map g (@nil A)). generalize (@nil A) as acc.
  induction l as [|x l IH]; intros acc; cbn; [reflexivity|]. rewrite IH, (insert_map g lt1 lt2 _ _ H). reflexivity.
Qed.

(** The sorted applications, with their positions in the history. *)
Definition sorted_apps (h : list dot_entry) : list (nat * dot_entry) :=
  sort_lt (fun a b => app_time (snd a) <? app_time (snd b)) (index_from 0 h).
Definition to_window (dur : Z) (e : dot_entry) : dot_window := let '(sn, a, pm) := e in (a, a + dur, sn, pm).

Lemma sorted_apps_sorted h : StronglySorted idx_le (sorted_apps h).
Proof. apply (sort_lex app_time h 0 []); [constructor | intros y []]. Qed.
Lemma sorted_apps_perm h : Permutation (sorted_apps h) (index_from 0 h).
Proof. apply sort_lt_perm; intros; rewrite ?Z.ltb_ge, ?Z.ltb_lt in *; lia. Qed.
Lemma base_dot_timings_eq dur h :
  base_dot_timings dur h = map (fun x => to_window dur (snd x)) (sorted_apps h).
Proof.
  unfold base_dot_timings, sort_by, sorted_apps.
  rewrite (sort_map (fun x : nat * dot_entry => to_window dur (snd x)) _ (fun a b => dw_start a <? dw_start b)).
  - f_equal. rewrite <- (map_map snd (to_window dur)), index_from_snd. reflexivity.
  - intros [i [[s1 a1] p1]] [j [[s2 a2] p2]]. reflexivity.
Qed.

(** ** One effect on one target *)

Lemma consolidate_cons dur x l :
  consolidate (map (fun x : nat * dot_entry => to_window dur (snd x)) (x :: l))
  = let '(sn, a, pm) := snd x in
    (a, match l with [] => a + dur | y :: _ => Z.min (a + dur) (app_time (snd y)) end, sn, pm)
    :: consolidate (map (fun x : nat * dot_entry => to_window dur (snd x)) l).
Proof. destruct x as [i [[sn a] pm]]. destruct l as [|[j [[sn' a'] pm']] l]; reflexivity. Qed.

Lemma window_ticks_in server last a e sn pm x t :
  In (x, t) (window_ticks server last (a, e, sn, pm)) <->
  x = (sn, a, pm) /\ (exists j, 0 <= j /\ t = dot_first_tick server a + 3000 * j) /\ t < e /\ ~ trailing last t.
Proof.
  unfold window_ticks. rewrite in_map_iff. split.
  - intros (t' & E & H). injection E as <- <-. apply filter_In in H as (H & T). apply range_step_in in H; [|lia].
    split; [reflexivity|]. split; [apply H|]. split; [apply H|]. rewrite <- is_trailing_spec. destruct (is_trailing last t'); [discriminate T | discriminate].
  - intros (-> & H1 & H2 & H3). exists t. split; [reflexivity|]. apply filter_In. split.
    + apply range_step_in; [lia|]. auto.
    + rewrite <- is_trailing_spec in H3. destruct (is_trailing last t); [congruence | reflexivity].
Qed.

Lemma consolidated_ticks server last dur L :
  StronglySorted idx_le L ->
  forall x t, In (x, t) (flat_map (window_ticks server last) (consolidate (map (fun x => to_window dur (snd x)) L)))
    <-> exists i L1 L2, L = (L1 ++ (i, x) :: L2)%list
          /\ (exists j, 0 <= j /\ t = dot_first_tick server (app_time x) + 3000 * j)
          /\ t < app_time x + dur /\ (forall y, In y L2 -> t < app_time (snd y)) /\ ~ trailing last t.
Proof.
  induction 1 as [|y L S IH F]; intros x t.
  - split; [intros [] | intros (i & L1 & L2 & E & _)]. destruct L1; discriminate.
  - rewrite consolidate_cons. destruct y as [i0 [[sn a] pm]]. cbn [snd]. cbn [flat_map]. rewrite in_app_iff, IH, window_ticks_in.
    rewrite Forall_forall in F. split.
    + intros [(-> & H1 & H2 & H3)|(i & L1 & L2 & -> & H)].
      * exists i0, [], L. split; [reflexivity|]. split; [exact H1|]. unfold app_time at 1. cbn [fst snd].
        destruct L as [|z L]; [split; [exact H2|]; split; [intros y []|exact H3]|].
        split; [lia|]. split; [|exact H3]. intros y [<-|Hy]; [lia|].
        inversion S as [|? ? S' F']; subst. rewrite Forall_forall in F'. specialize (F' y Hy).
        unfold idx_le, superseded_by in F'. lia.
      * exists i, ((i0, (sn, a, pm)) :: L1), L2. split; [reflexivity | exact H].
    + intros (i & L1 & L2 & E & H1 & H2 & H3 & H4). destruct L1 as [|z L1]; cbn in E.
      * left. injection E as E1 E2 E'. subst L x. split; [reflexivity|]. split; [exact H1|]. split; [|exact H4].
        unfold app_time in H2; cbn [fst snd] in H2. destruct L2 as [|z L2]; [exact H2|].
        specialize (H3 z (or_introl eq_refl)). lia.
      * right. injection E as E1 E'. exists i, L1, L2. subst L. auto.
Qed.

(** In a strictly sorted list the elements after [x] are the greater ones. *)
Lemma idx_le_irrefl x : ~ idx_le x x.
Proof. unfold idx_le, superseded_by. lia. Qed.
Lemma idx_le_asym x y : idx_le x y -> ~ idx_le y x.
Proof. unfold idx_le, superseded_by. lia. Qed.
Lemma after_iff L1 x L2 y :
  StronglySorted idx_le (L1 ++ x :: L2) -> In y (L1 ++ x :: L2) -> (In y L2 <-> idx_le x y).
Proof.
  intros S Hy. apply StronglySorted_app in S as (_ & S2 & S12). inversion S2 as [|? ? _ F]; subst.
  rewrite Forall_forall in F. split; [apply F|]. intros L. apply in_app_or in Hy as [Hy|[<-|Hy]]; [|destruct (idx_le_irrefl _ L)|exact Hy].
  destruct (idx_le_asym _ _ L). apply S12; [exact Hy | left; reflexivity].
Qed.

Lemma dot_ticks_in server last dur h x t :
  In (x, t) (dot_ticks server last dur h) <->
  (exists i, nth_error h i = Some x /\ ticks_at (dot_first_tick server) dur h i t) /\ ~ trailing last t.
Proof.
  unfold dot_ticks. rewrite base_dot_timings_eq, (consolidated_ticks _ _ _ _ (sorted_apps_sorted h)).
  assert (I : forall j e, In (j, e) (sorted_apps h) <-> nth_error h j = Some e).
  { intros j e. split; intros H.
    - apply (Permutation_in _ (sorted_apps_perm h)) in H. apply index_from_in in H as (k & -> & H). exact H.
    - apply (Permutation_in _ (Permutation_sym (sorted_apps_perm h))). apply index_from_in. exists j. auto. }
  split.
  - intros (i & L1 & L2 & E & H1 & H2 & H3 & H4). split; [|exact H4]. exists i.
    assert (Hi : nth_error h i = Some x). { apply I. rewrite E. apply in_or_app. right; left; reflexivity. }
    split; [exact Hi|]. exists x. split; [exact Hi|]. split; [exact H1|]. split; [exact H2|].
    intros j e' Hj Su. apply (H3 (j, e')). pose proof (sorted_apps_sorted h) as S. rewrite E in S.
    apply (after_iff L1 (i, x) L2 (j, e') S); [|exact Su]. rewrite <- E. apply I, Hj.
  - intros ((i & Hi & e & He & H1 & H2 & H3) & H4). rewrite Hi in He. injection He as <-.
    apply I in Hi as Hin. apply in_split in Hin as (L1 & L2 & E). exists i, L1, L2.
    split; [exact E|]. split; [exact H1|]. split; [exact H2|]. split; [|exact H4].
    intros [j e'] Hy. cbn. apply (H3 j e').
    + apply I. rewrite E. apply in_or_app. right; right; exact Hy.
    + pose proof (sorted_apps_sorted h) as S. rewrite E in S.
      apply (after_iff L1 (i, x) L2 (j, e') S); [|exact Hy]. apply in_or_app. right; right; exact Hy.
Qed.

Lemma StronglySorted_map {A B} (f : A -> B) (R : B -> B -> Prop) l :
  StronglySorted (fun a b => R (f a) (f b)) l -> StronglySorted R (map f l).
Proof.
  induction 1 as [|a l S IH F]; cbn; constructor; [exact IH|]. rewrite Forall_map. exact F.
Qed.
Lemma StronglySorted_filter {A} (R : A -> A -> Prop) p l : StronglySorted R l -> StronglySorted R (filter p l).
Proof.
  induction 1 as [|a l S IH F]; cbn; [constructor|]. destruct (p a); [|exact IH]. constructor; [exact IH|].
  rewrite Forall_forall in *. intros x Hx. apply filter_In in Hx as (Hx & _). apply F, Hx.
Qed.

Lemma dot_ticks_sorted server last dur h :
  (forall e, In e h -> app_time e <= dot_first_tick server (app_time e)) ->
  StronglySorted (fun x y => snd x < snd y) (dot_ticks server last dur h).
Proof.
  intros Hf. unfold dot_ticks. rewrite base_dot_timings_eq.
  pose proof (sorted_apps_sorted h) as S.
  assert (Hf' : forall x, In x (sorted_apps h) -> app_time (snd x) <= dot_first_tick server (app_time (snd x))).
  { intros x Hx. apply Hf. apply (Permutation_in _ (sorted_apps_perm h)) in Hx.
    apply (in_map snd) in Hx. rewrite index_from_snd in Hx. exact Hx. }
  revert S Hf'. generalize (sorted_apps h) as L. clear. intros L S Hf.
  induction S as [|y L S IH F]; [constructor|].
  rewrite consolidate_cons. destruct y as [i0 [[sn a] pm]]. cbn [snd flat_map].
  apply StronglySorted_app. split; [|split].
  - unfold window_ticks. apply StronglySorted_map. cbn [snd]. apply StronglySorted_filter.
    apply range_step_sorted. lia.
  - apply IH. intros x Hx. apply Hf. right; exact Hx.
  - intros [x t] [x' t'] H1 H2. cbn [snd]. apply window_ticks_in in H1 as (_ & _ & H1 & _).
    apply (consolidated_ticks server last dur L S) in H2 as (i & L1 & L2 & E & (j & Hj & ->) & _).
    assert (Hx : In (i, x') L) by (rewrite E; apply in_or_app; right; left; reflexivity).
    specialize (Hf (i, x') (or_intror Hx)). cbn [snd] in Hf.
    destruct L as [|z L]; [destruct L1; discriminate E|].
    assert (app_time (snd z) <= app_time x').
    { destruct Hx as [->|Hx]; [cbn; lia|]. inversion S as [|? ? _ F']; subst. rewrite Forall_forall in F'.
      specialize (F' _ Hx). unfold idx_le, superseded_by in F'. cbn [snd fst] in F'. lia. }
    lia.
Qed.

(** ** All effects *)

Definition dot_calls (server : option Q) (last : option Z) (target : string) (x : follow_up * list dot_entry) : list add_call :=
  match fu_dot (fst x) with
  | Some dur => tick_entries (fst x) target 0 (dot_ticks server last dur (snd x))
  | None => []
  end.
Definition all_dot_calls (server : option Q) (last : option Z) (d : dots) : list add_call :=
  flat_map (fun kv => flat_map (dot_calls server last (fst kv)) (snd kv)) d.

(** Only follow-ups with a duration are recorded. *)
Definition dots_ok (d : dots) : Prop :=
  forall kv x, In kv d -> In x (snd kv) -> fu_dot (fst x) <> None.

Lemma process_all_dots_eq server d last qu :
  dots_ok d -> process_all_dots server d last qu = foldM api_add (all_dot_calls server last d) qu.
Proof.
  intros H. unfold process_all_dots, all_dot_calls. revert qu.
  induction d as [|[k l] d IH]; intros qu; cbn [foldM flat_map fst snd]; [reflexivity|].
  rewrite foldM_app.
  assert (E : foldM (add_dot server k last) l qu = foldM api_add (flat_map (dot_calls server last k) l) qu).
  { assert (Hl : forall x, In x l -> fu_dot (fst x) <> None) by (intros x; apply (H (k, l)); left; reflexivity).
    clear H IH. revert qu. induction l as [|[fu h] l IHl]; intros qu; cbn [foldM flat_map]; [reflexivity|].
    rewrite add_dot_eq, foldM_app. unfold dot_calls at 1. cbn [fst snd].
    specialize (Hl (fu, h) (or_introl eq_refl)) as Hfu. cbn in Hfu.
    destruct (fu_dot fu) as [dur|]; [|congruence]. cbn [of_option bind].
    destruct (foldM api_add _ qu) as [q1|e]; [|reflexivity]. cbn [bind]. apply IHl.
    intros x Hx. apply Hl. right; exact Hx. }
  rewrite E. destruct (foldM api_add _ qu) as [q1|e]; [|reflexivity]. cbn [bind]. apply IH.
  intros kv x Hk. apply H. right; exact Hk.
Qed.

Lemma add_dot_entry_fst fu e l :
  map fst (add_dot_entry fu e l) = if existsb (fun x => follow_up_eqb fu (fst x)) l then map fst l else (map fst l ++ [fu])%list.
Proof.
  induction l as [|[fu' es] l IH]; cbn; [reflexivity|].
  destruct (follow_up_eqb fu fu'); cbn; [reflexivity|]. rewrite IH. destruct (existsb _ l); reflexivity.
Qed.

Lemma record_dots_ok l d :
  dots_ok d -> (forall x, In x l -> fu_dot (snd (fst x)) <> None) -> dots_ok (fold_left record_dot l d).
Proof.
  revert d; induction l as [|[[target fu] e] l IH]; intros d Hd Hl; cbn [fold_left]; [exact Hd|].
  apply IH; [|intros x Hx; apply Hl; right; exact Hx].
  unfold record_dot, add_dot_target. intros [k l0] x Hk Hx. cbn in Hx.
  set (old := match dget target d with Some l => l | None => [] end) in *.
  assert (Old : forall y, In y old -> fu_dot (fst y) <> None).
  { unfold old. intros y Hy. destruct (dget target d) as [l1|] eqn:E; [|destruct Hy]. apply dget_in in E.
    apply (Hd (target, l1)); assumption. }
  assert (New : forall y, In y (add_dot_entry fu e old) -> fu_dot (fst y) <> None).
  { intros y Hy. apply (in_map fst) in Hy. rewrite add_dot_entry_fst in Hy.
    assert (Hy' : In (fst y) (map fst old) \/ fst y = fu).
    { destruct (existsb _ old); [left; exact Hy|]. apply in_app_or in Hy as [Hy|[<-|[]]]; auto. }
    destruct Hy' as [Hy'| ->]; [|apply (Hl (target, fu, e)); left; reflexivity].
    apply in_map_iff in Hy' as (z & <- & Hz). apply Old, Hz. }
  clear Old. clearbody old.
  induction d as [|[k' v'] d IHd]; cbn [dset] in Hk.
  - destruct Hk as [E|[]]. injection E as <- <-. apply New, Hx.
  - destruct (String.eqb target k').
    + destruct Hk as [E|Hk]; [injection E as <- <-; apply New, Hx|]. apply (Hd (k, l0)); [right; exact Hk | exact Hx].
    + destruct Hk as [E|Hk]; [injection E as <- <-; apply (Hd (k', v')); [left; reflexivity | exact Hx]|].
      apply IHd; [|exact Hk]. intros kv y Hkv. apply Hd. right; exact Hkv.
Qed.

Lemma press_dots_dot p x : In x (press_dots p) -> fu_dot (snd (fst x)) <> None.
Proof.
  unfold press_dots. generalize 1. generalize (pl_follow_ups p) as fus.
  induction fus as [|fu fus IH]; intros k; cbn [numbered]; [intros []|]. rewrite in_app_iff.
  intros [H|H]; [|eapply IH; exact H]. unfold follow_up_dots in H. destruct (fu_dot fu) eqn:E; [|destruct H].
  apply in_map_iff in H as (y & <- & _). cbn. rewrite E. discriminate.
Qed.
Lemma log_dots_dot log x : In x (flat_map press_dots log) -> fu_dot (snd (fst x)) <> None.
Proof. intros H. apply in_flat_map in H as (p & _ & H). eapply press_dots_dot, H. Qed.

Lemma distinguishable_app l1 l2 : distinguishable (l1 ++ l2) -> distinguishable l1.
Proof. intros H x y Hx Hy. apply H; apply in_or_app; left; assumption. Qed.

Lemma history_app t fu l1 l2 : history t fu (l1 ++ l2) = (history t fu l1 ++ history t fu l2)%list.
Proof. unfold history. rewrite filter_app, map_app. reflexivity. Qed.

Lemma add_dot_entry_in fu0 e old :
  (forall fu, In fu (map fst old) -> (follow_up_eqb fu0 fu = true <-> fu0 = fu)) ->
  NoDup (map fst old) ->
  NoDup (map fst (add_dot_entry fu0 e old))
  /\ forall fu h, In (fu, h) (add_dot_entry fu0 e old) <->
       (fu <> fu0 /\ In (fu, h) old)
       \/ (fu = fu0 /\ exists h0, In (fu0, h0) old /\ h = (h0 ++ [e])%list)
       \/ (fu = fu0 /\ ~ In fu0 (map fst old) /\ h = [e]).
Proof.
  intros D N. split.
  - rewrite add_dot_entry_fst. destruct (existsb _ old) eqn:E; [exact N|].
    apply NoDup_app_intro; [exact N | repeat constructor; intros [] |]. intros fu2 Hin [<-|[]]. apply in_map_iff in Hin as ([fu1 h1] & <- & Hin).
    assert (T : existsb (fun x => follow_up_eqb fu1 (fst x)) old = true); [|cbn in *; congruence].
    apply existsb_exists. exists (fu1, h1). split; [exact Hin|]. cbn. apply D; [|reflexivity].
    apply (in_map fst) in Hin. exact Hin.
  - induction old as [|[fu1 h1] old IH]; intros fu h; cbn [add_dot_entry map In fst].
    + split.
      * intros [E|[]]. injection E as <- <-. right; right. tauto.
      * intros [(_ & [])|[(_ & h0 & [] & _)|(-> & _ & ->)]]. left; reflexivity.
    + inversion N as [|? ? N1 N2]; subst. cbn [map fst] in D.
      pose proof (D fu1 (or_introl eq_refl)) as D1.
      destruct (follow_up_eqb fu0 fu1) eqn:E.
      * assert (E' : fu0 = fu1) by (apply D1; reflexivity); clear D1. subst fu1. cbn [In]. split.
        -- intros [H|H]; [injection H as <- <-; right; left; split; [reflexivity|]; exists h1; auto|].
           left. split; [|right; exact H]. intros ->. apply N1. apply (in_map fst) in H. exact H.
        -- intros [(Ne & [H|H])|[(-> & h0 & [H|H] & ->)|(-> & Ne & _)]].
           ++ injection H as <- <-. congruence.
           ++ right; exact H.
           ++ injection H as <-. left; reflexivity.
           ++ destruct N1. apply (in_map fst) in H. exact H.
           ++ destruct Ne. left; reflexivity.
      * assert (Ne01 : fu0 <> fu1) by (intros X; apply D1 in X; discriminate).
        cbn [In]. rewrite IH; [|intros f Hf; apply D; right; exact Hf | exact N2]. split.
        -- intros [H|[(A & B)|[(A & h0 & B & C)|(A & B & C)]]].
           ++ injection H as <- <-. left. split; [congruence | left; reflexivity].
           ++ left; auto.
           ++ right; left. split; [exact A|]. exists h0. auto.
           ++ right; right. split; [exact A|]. split; [|exact C]. intros [X|X]; [congruence | exact (B X)].
        -- intros [(A & [B|B])|[(A & h0 & [B|B] & C)|(A & B & C)]].
           ++ left; exact B.
           ++ right; left; auto.
           ++ injection B as B1 B2. congruence.
           ++ right; right; left. split; [exact A|]. exists h0. auto.
           ++ right; right; right. split; [exact A|]. split; [|exact C]. intros X. apply B. right; exact X.
Qed.

Definition dots_for (l : list dot_application) (d : dots) : Prop :=
  NoDup (map fst d)
  /\ (forall t fl, dget t d = Some fl -> NoDup (map fst fl)
        /\ forall fu h, In (fu, h) fl -> h = history t fu l /\ In (t, fu) (map fst l))
  /\ (forall t fu, In (t, fu) (map fst l) -> exists fl h, dget t d = Some fl /\ In (fu, h) fl).

Lemma record_dots_for l : distinguishable l -> dots_for l (fold_left record_dot l []).
Proof.
  induction l as [|[[t0 fu0] e] l IH] using rev_ind; intros D.
  - split; [constructor|]. split; [discriminate | intros t fu []].
  - specialize (IH (distinguishable_app _ _ D)). rewrite fold_left_app. cbn [fold_left].
    set (d := fold_left record_dot l []) in *. destruct IH as (I1 & I2 & I3).
    unfold record_dot, add_dot_target.
    set (old := match dget t0 d with Some l => l | None => [] end).
    assert (Dn : forall t fu, In (t, fu) (map fst l) -> (follow_up_eqb fu0 fu = true <-> fu0 = fu)).
    { intros t fu H. apply in_map_iff in H as ([[t' fu'] e'] & E & H). injection E as <- <-.
      apply (D (t0, fu0, e) (t', fu', e')); apply in_or_app; [right; left; reflexivity | left; exact H]. }
    assert (Dn' : forall t fu, In (t, fu) (map fst l) -> (follow_up_eqb fu fu0 = true <-> fu = fu0)).
    { intros t fu H. apply in_map_iff in H as ([[t' fu'] e'] & E & H). injection E as <- <-.
      apply (D (t', fu', e') (t0, fu0, e)); apply in_or_app; [left; exact H | right; left; reflexivity]. }
    assert (D0 : follow_up_eqb fu0 fu0 = true).
    { apply (D (t0, fu0, e) (t0, fu0, e)); [apply in_or_app; right; left; reflexivity | apply in_or_app; right; left; reflexivity | reflexivity]. }
    assert (Old : NoDup (map fst old) /\ forall fu h, In (fu, h) old -> h = history t0 fu l /\ In (t0, fu) (map fst l)).
    { unfold old. destruct (dget t0 d) as [fl|] eqn:E; [apply I2, E|]. split; [constructor | intros fu h []]. }
    destruct Old as (N & Old).
    assert (OldFst : forall fu, In fu (map fst old) -> In (t0, fu) (map fst l)).
    { intros fu H. apply in_map_iff in H as ([f h] & <- & H). apply (Old _ _ H). }
    destruct (add_dot_entry_in fu0 e old) as (N' & Hin); [intros fu H; apply (Dn t0), OldFst, H | exact N |].
    assert (Last : forall t fu, history t fu [(t0, fu0, e)] = if String.eqb t t0 && follow_up_eqb fu fu0 then [e] else []).
    { intros t fu. unfold history. cbn. destruct (String.eqb t t0 && follow_up_eqb fu fu0); reflexivity. }
    split; [apply dset_nodup, I1|]. split.
    + intros t fl H. destruct (String.string_dec t t0) as [->|Ne].
      * rewrite dget_dset_same in H. injection H as <-. split; [exact N'|]. intros fu h H.
        apply Hin in H. rewrite history_app, Last, String.eqb_refl. cbn [andb]. rewrite map_app, in_app_iff.
        destruct H as [(Nf & H)|[(-> & h0 & H & ->)|(-> & H & ->)]].
        -- apply Old in H as (-> & H). destruct (follow_up_eqb fu fu0) eqn:E.
           ++ apply (Dn' t0) in E; [congruence | exact H].
           ++ rewrite app_nil_r. auto.
        -- apply Old in H as (-> & H). rewrite D0. auto.
        -- rewrite D0. split; [|right; left; reflexivity].
           enough (Z : history t0 fu0 l = []) by (rewrite Z; reflexivity).
           unfold history. rewrite filter_none; [reflexivity|].
           intros [[t' fu'] e'] Hx. cbn. destruct (String.eqb_spec t0 t') as [<-|]; [|reflexivity]. cbn.
           destruct (follow_up_eqb fu0 fu') eqn:E; [|reflexivity].
           assert (Hl : In (t0, fu') (map fst l)) by (apply in_map_iff; exists (t0, fu', e'); auto).
           apply (Dn t0) in E; [|exact Hl]. subst fu'. destruct (I3 _ _ Hl) as (fl & h & G & Hf).
           destruct H. unfold old. rewrite G. apply (in_map fst) in Hf. exact Hf.
      * rewrite dget_dset_other in H by congruence. destruct (I2 _ _ H) as (A & B). split; [exact A|].
        intros fu h Hf. destruct (B _ _ Hf) as (-> & Hl). rewrite history_app, Last.
        rewrite (proj2 (String.eqb_neq t t0) Ne). cbn. rewrite app_nil_r. split; [reflexivity|].
        rewrite map_app. apply in_or_app. left; exact Hl.
    + intros t fu H. rewrite map_app, in_app_iff in H. destruct (String.string_dec t t0) as [->|Ne].
      * rewrite dget_dset_same. exists (add_dot_entry fu0 e old).
        assert (Cs : In fu (map fst (add_dot_entry fu0 e old))).
        { rewrite add_dot_entry_fst. destruct H as [H|[H|[]]].
          - destruct (I3 _ _ H) as (fl & h & G & Hf). unfold old. rewrite G.
            apply (in_map fst) in Hf. cbn in Hf. destruct (existsb _ fl); [exact Hf | apply in_or_app; left; exact Hf].
          - injection H as <-. destruct (existsb _ old) eqn:E; [|apply in_or_app; right; left; reflexivity].
            apply existsb_exists in E as ([fu1 h1] & Hf & E). cbn in E. apply (in_map fst) in Hf. cbn in Hf.
            apply (Dn t0) in E; [subst; exact Hf | apply OldFst, Hf]. }
        apply in_map_iff in Cs as ([f h] & <- & Cs). exists h. auto.
      * rewrite dget_dset_other by congruence. destruct H as [H|[H|[]]]; [apply I3, H|]. injection H as <- <-. congruence.
Qed.

Lemma all_ticks_app first last l ks1 cs1 ks2 cs2 :
  all_ticks first last l ks1 cs1 -> all_ticks first last l ks2 cs2 ->
  all_ticks first last l (ks1 ++ ks2) (cs1 ++ cs2).
Proof. induction 1; intros H2; cbn; [exact H2|]. rewrite <- app_assoc. econstructor; eauto. Qed.

Lemma in_history t fu l e : In e (history t fu l) -> In e (map snd l).
Proof. intros H. apply in_map_iff in H as (x & <- & H). apply filter_In in H as (H & _). apply in_map, H. Qed.

Lemma all_dot_calls_spec server last l :
  distinguishable l -> (forall x, In x l -> fu_dot (snd (fst x)) <> None) ->
  (forall x, In x l -> app_time (snd x) <= dot_first_tick server (app_time (snd x))) ->
  exists ks, effects_of l ks
    /\ all_ticks (dot_first_tick server) last l ks (all_dot_calls server last (fold_left record_dot l [])).
Proof.
  intros D Hdot Hf. pose proof (record_dots_for l D) as (I1 & I2 & I3).
  set (d := fold_left record_dot l []) in *.
  exists (flat_map (fun kv => map (fun x => (fst kv, fst x)) (snd kv)) d).
  assert (A : forall kv, In kv d -> dget (fst kv) d = Some (snd kv)).
  { intros [k v] H. apply in_dget; assumption. }
  split.
  - split.
    + assert (A' : forall kv, In kv d -> NoDup (map fst (snd kv))) by (intros kv H; apply (I2 (fst kv)), A, H).
      clear - I1 A'. induction d as [|[k v] d IH]; cbn; [constructor|]. inversion I1 as [|? ? N1 N2]; subst.
      apply NoDup_app_intro.
      * rewrite <- (map_map fst (fun f => (k, f))). apply FinFun.Injective_map_NoDup; [intros x y E; injection E as <-; reflexivity|].
        apply (A' (k, v)). left; reflexivity.
      * apply IH; [exact N2 | intros kv H; apply A'; right; exact H].
      * intros [k' f] H1 H2. apply in_map_iff in H1 as (x & E & _). injection E as <- _.
        apply in_flat_map in H2 as ([k2 v2] & H2 & H3). apply in_map_iff in H3 as (y & E & _). injection E as E _. cbn in E. subst k2.
        apply N1. apply (in_map fst) in H2. exact H2.
    + intros [t fu]. rewrite in_flat_map. split.
      * intros ([k v] & H & Hx). apply in_map_iff in Hx as ([fu' h] & E & Hx). injection E as E1 E2. cbn in *. subst.
        destruct (I2 t v (A _ H)) as (_ & B). apply (B _ _ Hx).
      * intros H. destruct (I3 _ _ H) as (fl & h & G & Hx). exists (t, fl). split; [apply dget_in, G|].
        apply in_map_iff. exists (fu, h). auto.
  - assert (B : forall kv x, In kv d -> In x (snd kv) -> snd x = history (fst kv) (fst x) l /\ In (fst kv, fst x) (map fst l)).
    { intros kv [fu h] H Hx. destruct (I2 _ _ (A _ H)) as (_ & B). apply B, Hx. }
    clear I1 I2 I3 A. clearbody d. unfold all_dot_calls.
    induction d as [|[k v] d IH]; cbn [flat_map]; [constructor|].
    apply all_ticks_app; [|apply IH; intros kv x H; apply B; right; exact H]. cbn [fst snd].
    assert (B' : forall x, In x v -> snd x = history k (fst x) l /\ In (k, fst x) (map fst l)).
    { intros x. apply (B (k, v)). left; reflexivity. }
    clear - Hdot Hf B'. induction v as [|[fu h] v IH]; cbn [flat_map map]; [constructor|].
    destruct (B' (fu, h) (or_introl eq_refl)) as (Eh & Hin). cbn [fst snd] in *. subst h.
    apply in_map_iff in Hin as ([[t f] e] & E & Hin). injection E as -> ->.
    specialize (Hdot _ Hin). cbn in Hdot. unfold dot_calls at 1. cbn [fst snd].
    destruct (fu_dot fu) as [dur|] eqn:Ed; [|congruence]. econstructor.
    + exact Ed.
    + split; [|intros x t; apply dot_ticks_in]. apply dot_ticks_sorted. intros x Hx. apply in_history in Hx.
      apply in_map_iff in Hx as (y & <- & Hy). apply Hf, Hy.
    + apply IH. intros x Hx. apply B'. right; exact Hx.
Qed.

(** ** The first tick *)

Lemma fmod_pos_bounds x y : (0 < y)%Q -> (fl y == y)%Q -> (0 <= fmod_pos x y <= y)%Q.
Proof.
  intros Y Fy. unfold fmod_pos. cbv zeta. set (r := (x - y * inject_Z (qtrunc (x / y)))%Q).
  assert (B : (- y < r < y)%Q).
  { assert (E : (x == y * (x / y))%Q) by (field; lra). set (k := (x / y)%Q) in *.
    assert (K : (-1 < k - inject_Z (qtrunc k) < 1)%Q).
    { unfold qtrunc. destruct (Qle_bool 0 k) eqn:C.
      - pose proof (Qfloor_le k). pose proof (Qlt_floor k) as L. rewrite inject_Z_plus in L.
        change (inject_Z 1) with 1%Q in L. split; lra.
      - pose proof (Qle_ceiling k). pose proof (Qceiling_lt k) as L. unfold Z.sub in L. rewrite inject_Z_plus in L.
        change (inject_Z (-(1))) with (-(1))%Q in L. split; lra. }
    unfold r. clearbody k. rewrite E. setoid_replace (y * k - y * inject_Z (qtrunc k))%Q with (y * (k - inject_Z (qtrunc k)))%Q by ring.
    split.
    - assert (0 < y * (k - inject_Z (qtrunc k) + 1))%Q by (apply Qmult_lt_0_compat; lra). lra.
    - assert (0 < y * (1 - (k - inject_Z (qtrunc k))))%Q by (apply Qmult_lt_0_compat; lra). lra. }
  destruct (qltb r 0) eqn:C.
  - apply qltb_spec in C. split; [apply fl_nonneg; lra|]. apply fl_le_of; [exact Fy | lra].
  - split; [|lra]. destruct (Qlt_le_dec r 0) as [L|L]; [apply qltb_spec in L; congruence | exact L].
Qed.

Lemma dot_first_tick_ge server start : Z.abs start <= 2 ^ 52 -> start <= dot_first_tick server start.
Proof.
  intros H. unfold dot_first_tick. destruct server as [s0|]; [|lia].
  set (x := fsub _ _). destruct (Qle_bool _ _); [lia|].
  assert (F3 : (fl (q DOT_TICK_INTERVAL) == q DOT_TICK_INTERVAL)%Q) by (apply fl_int; vm_compute; discriminate).
  pose proof (fmod_pos_bounds x (q DOT_TICK_INTERVAL) ltac:(reflexivity) F3) as (B1 & B2).
  set (sh := fmod_pos x (q DOT_TICK_INTERVAL)) in *. unfold q, DOT_TICK_INTERVAL in *.
  rewrite <- (qtrunc_int start) at 1. apply qtrunc_mono.
  unfold fadd. apply fl_ge_int; [lia|].
  assert (L : (inject_Z (start - 3000) <= fsub (inject_Z start) sh)%Q).
  { apply fl_ge_int; [lia|]. unfold Z.sub. rewrite inject_Z_plus. change (inject_Z (- (3000))) with (- inject_Z 3000)%Q. lra. }
  unfold Z.sub in L. rewrite inject_Z_plus in L. change (inject_Z (- (3000))) with (- inject_Z 3000)%Q in L. lra.
Qed.

Lemma qtrunc_div_int a b : 0 < b -> qtrunc (inject_Z a / inject_Z b) = Z.quot a b.
Proof.
  intros B. destruct b as [|b|b]; try lia.
  assert (E : (inject_Z a / inject_Z (Z.pos b) == a # b)%Q).
  { unfold Qdiv, Qinv, inject_Z. cbn. unfold Qeq. cbn. lia. }
  rewrite (qtrunc_compat _ _ E). unfold qtrunc.
  destruct (Qle_bool 0 (a # b)) eqn:C.
  - apply Qle_bool_iff in C. unfold Qle in C. cbn in C. unfold Qfloor. symmetry. apply Z.quot_div_nonneg; lia.
  - assert (N : (a < 0)%Z).
    { destruct (Z.le_gt_cases 0 a) as [X|X]; [|exact X].
      assert (T : Qle_bool 0 (a # b) = true); [|congruence]. apply Qle_bool_iff. unfold Qle. cbn. lia. }
    unfold Qceiling, Qfloor. cbn. rewrite <- (Z.opp_involutive a) at 2. rewrite Z.quot_opp_l by lia.
    rewrite Z.quot_div_nonneg by lia. reflexivity.
Qed.

Lemma fmod_pos_int a : (fmod_pos (inject_Z a) (inject_Z 3000) == inject_Z (a mod 3000))%Q.
Proof.
  unfold fmod_pos. cbv zeta. rewrite qtrunc_div_int by lia.
  assert (E : (inject_Z a - inject_Z 3000 * inject_Z (Z.quot a 3000) == inject_Z (Z.rem a 3000))%Q).
  { pose proof (Z.quot_rem' a 3000). rewrite <- inject_Z_mult. unfold Qminus. rewrite <- inject_Z_opp, <- inject_Z_plus.
    apply inject_Z_injective. lia. }
  pose proof (Z.rem_bound_abs a 3000 ltac:(lia)) as RB.
  assert (S : Z.rem a 3000 = a mod 3000 \/ Z.rem a 3000 = a mod 3000 - 3000).
  { pose proof (Z.quot_rem' a 3000). pose proof (Z.div_mod a 3000 ltac:(lia)). pose proof (Z.mod_pos_bound a 3000 ltac:(lia)). lia. }
  pose proof (Z.mod_pos_bound a 3000 ltac:(lia)) as MB.
  destruct (qltb _ 0) eqn:C.
  - apply qltb_spec in C. rewrite E in C. change 0%Q with (inject_Z 0) in C. apply inject_Z_lt_inv in C.
    rewrite E, <- inject_Z_plus. rewrite fl_int by lia. apply inject_Z_injective. lia.
  - rewrite E. apply inject_Z_injective. destruct S as [S|S]; [exact S|].
    assert (T : (inject_Z a - inject_Z 3000 * inject_Z (Z.quot a 3000) < 0)%Q).
    { rewrite E. apply (inject_Z_lt _ 0). lia. }
    apply qltb_spec in T. congruence.
Qed.

Lemma fmod_pos_compat x x' y : (x == x')%Q -> (fmod_pos x y == fmod_pos x' y)%Q.
Proof.
  intros E. unfold fmod_pos. cbv zeta. assert (T : qtrunc (x / y) = qtrunc (x' / y)) by (apply qtrunc_compat; rewrite E; reflexivity).
  rewrite T. set (r := (x - _)%Q). set (r' := (x' - _)%Q).
  assert (R : (r == r')%Q) by (unfold r, r'; rewrite E; reflexivity).
  unfold qltb. rewrite (Qleb_comp 0%Q 0%Q (Qeq_refl 0%Q) r r' R). destruct (negb _); [rewrite R; reflexivity | exact R].
Qed.

Lemma dot_first_tick_server s0 o start :
  (fmul 1000 s0 == inject_Z o)%Q -> Z.abs start <= 2 ^ 51 -> Z.abs o <= 2 ^ 51 ->
  server_tick o start (dot_first_tick (Some s0) start).
Proof.
  intros Ho Hs Hob. unfold dot_first_tick. unfold q, DOT_TICK_INTERVAL. change (inject_Z 1000) with 1000%Q.
  assert (X : (fsub (inject_Z start) (fmul 1000 s0) == inject_Z (start - o))%Q).
  { unfold fsub. rewrite Ho. unfold Qminus. rewrite <- inject_Z_opp, <- inject_Z_plus. apply fl_int. lia. }
  assert (M : (fmod_pos (fsub (inject_Z start) (fmul 1000 s0)) (inject_Z 3000) == inject_Z ((start - o) mod 3000))%Q).
  { rewrite (fmod_pos_compat _ _ _ X). apply fmod_pos_int. }
  set (sh := fmod_pos _ _) in *. clearbody sh. clear X.
  pose proof (Z.mod_pos_bound (start - o) 3000 ltac:(lia)) as MB.
  pose proof (Z.div_mod (start - o) 3000 ltac:(lia)) as DM.
  set (m := (start - o) mod 3000) in *. set (k := (start - o) / 3000) in *.
  destruct (Qle_bool sh (dec 1 1000000)) eqn:C.
  - apply Qle_bool_iff in C. assert (m = 0).
    { destruct (Z.eq_dec m 0) as [E|N]; [exact E|].
      assert (L : (inject_Z 1 <= inject_Z m)%Q) by (apply inject_Z_le; lia).
      assert (L2 : (dec 1 1000000 < inject_Z 1)%Q) by reflexivity. lra. }
    split; [lia|]. exists k. lia.
  - assert (m <> 0).
    { intros E. rewrite E in M. assert (L2 : (inject_Z 0 <= dec 1 1000000)%Q) by (vm_compute; discriminate).
      assert (T : Qle_bool sh (dec 1 1000000) = true); [|congruence]. apply Qle_bool_iff. rewrite M. exact L2. }
    assert (S : (fsub (inject_Z start) sh == inject_Z (start - m))%Q).
    { unfold fsub. rewrite M. unfold Qminus. rewrite <- inject_Z_opp, <- inject_Z_plus. apply fl_int. lia. }
    assert (A : (fadd (fsub (inject_Z start) sh) (inject_Z 3000) == inject_Z (start - m + 3000))%Q).
    { unfold fadd. rewrite S, <- inject_Z_plus. apply fl_int. lia. }
    rewrite (qtrunc_compat _ _ A), qtrunc_int. split; [lia|]. exists (k + 1). lia.
Qed.
