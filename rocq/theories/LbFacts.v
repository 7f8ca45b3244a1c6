(** * Limit breaks in kill times (C88) *)

From Coq Require Import ZArith NArith QArith Qround Qabs List String Ascii Bool Lia Lqa.
From Verif Require Import Base BaseFacts Float FloatFacts Strings Types Stats Library Events Rotation DamageBuild Damage KillTime Lookup Channeling SpecTrackers SpecReport ReportFacts SimFacts KillFacts ExactFloat ExactRoll SpecLb.
Import ListNotations.
Open Scope string_scope.
Open Scope Z_scope.

(** ** Digits *)

Lemma digit_of_char d : (d < 10)%N -> digit_of (digit_char d) = Some d.
Proof.
  intros H. unfold digit_of, digit_char. rewrite N_ascii_embedding by lia.
  replace ((48 <=? 48 + d)%N) with true by (symmetry; apply N.leb_le; lia). replace ((48 + d <=? 57)%N) with true by (symmetry; apply N.leb_le; lia).
  cbn [andb]. f_equal. lia.
Qed.
Lemma digit_of_spec c d : digit_of c = Some d -> (d < 10)%N /\ c = digit_char d.
Proof.
  unfold digit_of, digit_char. destruct ((48 <=? N_of_ascii c)%N && (N_of_ascii c <=? 57)%N) eqn:E; [|discriminate]. intros [= <-].
  apply andb_true_iff in E as (E1 & E2). apply N.leb_le in E1, E2. split; [lia|].
  replace (48 + (N_of_ascii c - 48))%N with (N_of_ascii c) by lia. symmetry. apply ascii_N_embedding.
Qed.
Lemma app_one s c t : (s ++ String c "") ++ t = s ++ String c t.
Proof. induction s as [|a s IH]; [reflexivity|]. cbn. rewrite IH. reflexivity. Qed.
Lemma string_app_assoc a b c : (a ++ b) ++ c = a ++ (b ++ c).
Proof. induction a as [|x a IH]; [reflexivity|]. cbn. rewrite IH. reflexivity. Qed.
Lemma digits_numeral s n : numeral s n -> forall t, digits_value 0 (s ++ t) = digits_value n t.
Proof.
  induction 1 as [d D|s n d N IH D]; intros t.
  - cbn. rewrite (digit_of_char d D). reflexivity.
  - rewrite app_one, IH. cbn [digits_value]. rewrite (digit_of_char d D). reflexivity.
Qed.
Lemma digits_end n rest : no_digit_first rest -> digits_value n rest = n.
Proof.
  destruct rest as [|c r]; [reflexivity|]. cbn. intros H. destruct (digit_of c) as [d|] eqn:E; [|reflexivity].
  apply digit_of_spec in E as (D & E). destruct (H d D E).
Qed.
Lemma numeral_head s n : numeral s n -> exists c s' d, s = String c s' /\ digit_of c = Some d.
Proof.
  induction 1 as [d D|s n d N (c & s' & d' & -> & E) D].
  - exists (digit_char d), "", d. split; [reflexivity|apply digit_of_char, D].
  - exists c, (s' ++ String (digit_char d) ""), d'. split; [reflexivity|exact E].
Qed.
Lemma match_numeral s n rest : numeral s n -> no_digit_first rest -> match_digits (s ++ rest) = Some n.
Proof.
  intros N R. pose proof (digits_numeral s n N rest) as V. rewrite (digits_end n rest R) in V.
  destruct (numeral_head s n N) as (c & s' & d & -> & E). cbn in *. rewrite E in *. f_equal. exact V.
Qed.
Lemma digits_split t : forall s n, numeral s n -> exists t1 rest, t = t1 ++ rest /\ numeral (s ++ t1) (digits_value n t) /\ no_digit_first rest.
Proof.
  induction t as [|c t IH]; intros s n N.
  - exists "", "". split; [reflexivity|]. split; [|exact I]. replace (s ++ "") with s; [exact N|]. clear. induction s as [|a s IH]; [reflexivity|]. cbn. rewrite <- IH. reflexivity.
  - cbn [digits_value]. destruct (digit_of c) as [d|] eqn:E.
    + apply digit_of_spec in E as (D & ->). destruct (IH _ _ (num_more s n d N D)) as (t1 & rest & -> & N' & R).
      exists (String (digit_char d) t1), rest. split; [reflexivity|]. split; [|exact R]. rewrite app_one in N'. exact N'.
    + exists "", (String c t). split; [reflexivity|]. split.
      * replace (s ++ "") with s; [exact N|]. clear. induction s as [|a s IH]; [reflexivity|]. cbn. rewrite <- IH. reflexivity.
      * intros d D ->. rewrite (digit_of_char d D) in E. discriminate.
Qed.
Lemma match_split t n : match_digits t = Some n -> exists s rest, t = s ++ rest /\ numeral s n /\ no_digit_first rest.
Proof.
  destruct t as [|c t]; [discriminate|]. cbn. destruct (digit_of c) as [d|] eqn:E; [|discriminate]. intros [= <-].
  apply digit_of_spec in E as (D & ->). destruct (digits_split t _ _ (num_one d D)) as (t1 & rest & -> & N & R).
  exists (String (digit_char d) t1), rest. split; [reflexivity|]. split; [exact N|exact R].
Qed.
Lemma strip_app p s : strip_prefix p (p ++ s) = Some s.
Proof. induction p as [|a p IH]; [reflexivity|]. cbn. rewrite Ascii.eqb_refl. exact IH. Qed.
Lemma strip_spec p : forall s r, strip_prefix p s = Some r -> s = p ++ r.
Proof.
  induction p as [|a p IH]; intros s r; cbn; [intros [= ->]; reflexivity|]. destruct s as [|b s]; [discriminate|].
  destruct (Ascii.eqb a b) eqn:E; [|discriminate]. apply Ascii.eqb_eq in E as <-. intros H. rewrite (IH _ _ H). reflexivity.
Qed.
Lemma search_written label n c : search_label label c = Some n <-> written label n c.
Proof.
  unfold search_label, written. split.
  - destruct (strip_prefix (label ++ " ") c) as [t|] eqn:E; [|discriminate]. intros M. apply strip_spec in E as ->.
    destruct (match_split t n M) as (s & rest & -> & N & R). exists s, rest. rewrite string_app_assoc. auto.
  - intros (s & rest & -> & N & R). rewrite <- (string_app_assoc label " "), strip_app. apply match_numeral; assumption.
Qed.
Lemma written_one label n n' c : written label n c -> written label n' c -> n = n'.
Proof. rewrite <- !search_written. congruence. Qed.
Lemma not_both n n' c : written "Mean Damage:" n c -> written "Exact Damage:" n' c -> False.
Proof. intros (s & r & -> & _) (s' & r' & E & _). discriminate E. Qed.

(** ** The damage *)

Lemma lb_factor u0 : (0 <= u0 < 1)%Q -> near 4 (fadd (dec 95 100) (fmul (dec 1 10) u0)) ((95 # 100) + (1 # 10) * u0).
Proof.
  intros [U0 U1]. unfold fadd. apply (near_fl 3); [lia|]. apply near_sum; [lia|lra|lra| |].
  - apply (near_weaken 1); [lia|apply dec_near].
  - apply (near_weaken 2); [lia|]. unfold fmul. apply (near_fl 1); [lia|]. apply near_mult, dec_near.
Qed.
Lemma lb_roll x b u0 : (x == inject_Z b)%Q -> 0 <= b <= 100000000 -> (0 <= u0 < 1)%Q ->
  let n := Qfloor (fmul x (fadd (dec 95 100) (fmul (dec 1 10) u0))) in
  let y := (inject_Z b * ((95 # 100) + (1 # 10) * u0))%Q in (y - 1 - (1 # 1000000) < inject_Z n <= y + (1 # 1000000))%Q.
Proof.
  intros X B U n y. set (f := fadd _ _) in n.
  assert (N : near 5 (fmul x f) y).
  { unfold fmul, y. rewrite X. apply (near_fl 4); [lia|]. apply near_mult_l, lb_factor, U. }
  assert (B0 : (0 <= inject_Z b)%Q) by (change 0%Q with (inject_Z 0); rewrite <- Zle_Qle; lia).
  assert (B1 : (inject_Z b <= 100000000)%Q) by (change 100000000%Q with (inject_Z 100000000); rewrite <- Zle_Qle; lia).
  assert (Y : (0 <= y <= 105000000)%Q). { unfold y. destruct U. split; nra. }
  unfold near in N. rewrite (Qabs_pos y) in N by lra.
  assert (S : (inject_Z 5 * ulp * y <= 1 # 1000000)%Q).
  { apply Qle_trans with (inject_Z 5 * ulp * 105000000)%Q; [|vm_compute; discriminate]. rewrite !(Qmult_comm (inject_Z 5 * ulp)).
    apply Qmult_le_compat_r; [lra|vm_compute; discriminate]. }
  apply Qabs_Qle_condition in N. pose proof (Qfloor_le (fmul x f)) as F1. pose proof (Qlt_floor (fmul x f)) as F2. fold n in F1, F2.
  rewrite inject_Z_plus in F2. change (inject_Z 1) with 1%Q in F2. lra.
Qed.
Lemma lb_mean c n k u : written "Mean Damage:" n c -> (n <= 100000000)%N -> (forall j, (0 <= u j < 1)%Q) ->
  exists l, get_lb_damage c k u = Ok l /\ List.length l = k
    /\ forall j d, nth_error l j = Some d -> exists z, let y := (inject_Z (Z.of_N n) * ((95 # 100) + (1 # 10) * u j))%Q in
         (d == inject_Z z)%Q /\ (y - 1 - (1 # 1000000) < inject_Z z <= y + (1 # 1000000))%Q.
Proof.
  intros W B U. apply search_written in W. unfold get_lb_damage. rewrite W. eexists. split; [reflexivity|].
  split; [rewrite map_length; apply seq_length|]. intros j d H.
  assert (J : (j < k)%nat). { assert (H' : nth_error (map (fun j => ffloor (fmul (fl (q (Z.of_N n))) (fadd (dec 95 100) (fmul (dec 1 10) (u j))))) (seq 0 k)) j <> None) by (rewrite H; discriminate).
    apply nth_error_Some in H'. rewrite map_length, seq_length in H'. exact H'. }
  rewrite nth_error_map, (nth_error_nth' _ 0%nat) in H by (rewrite seq_length; exact J). rewrite seq_nth in H by exact J. cbn in H. injection H as <-.
  eexists. cbv zeta. split; [unfold ffloor; reflexivity|]. apply lb_roll; [|lia|apply U]. unfold q. apply fl_int. lia.
Qed.
Lemma lb_exact c n k u : written "Exact Damage:" n c -> (n <= 2 ^ 53)%N ->
  exists l, get_lb_damage c k u = Ok l /\ List.length l = k /\ forall d, In d l -> (d == inject_Z (Z.of_N n))%Q.
Proof.
  intros W B. unfold get_lb_damage. destruct (search_label "Mean Damage:" c) as [m|] eqn:E.
  - apply search_written in E. destruct (not_both _ _ _ E W).
  - apply search_written in W. rewrite W. eexists. split; [reflexivity|]. split; [apply repeat_length|]. intros d I. apply repeat_spec in I as ->.
    unfold q. apply fl_int. change (2 ^ 53)%N with 9007199254740992%N in B. change (2 ^ 53) with 9007199254740992. lia.
Qed.
Lemma lb_raises c k u : (forall n, ~ written "Mean Damage:" n c /\ ~ written "Exact Damage:" n c) <-> get_lb_damage c k u = Err RuntimeError.
Proof.
  unfold get_lb_damage. destruct (search_label "Mean Damage:" c) as [m|] eqn:E, (search_label "Exact Damage:" c) as [x|] eqn:E'; (split; [|try discriminate]).
  - intros H. destruct (H m) as (H1 & _). destruct H1. apply search_written, E.
  - intros H. destruct (H m) as (H1 & _). destruct H1. apply search_written, E.
  - intros H. destruct (H x) as (_ & H1). destruct H1. apply search_written, E'.
  - reflexivity.
  - intros _ n. rewrite <- !search_written, E, E'. split; discriminate.
Qed.

(** ** The rows of a rotation *)

Lemma mapM_i_nth {A B} (f : nat -> A -> res B) l : forall i l', mapM_i f i l = Ok l' ->
  List.length l' = List.length l /\ forall k x, nth_error l k = Some x -> exists y, nth_error l' k = Some y /\ f (i + k)%nat x = Ok y.
Proof.
  induction l as [|a l IH]; intros i l' H; cbn in H.
  - injection H as <-. split; [reflexivity|]. intros [|k] x E; discriminate E.
  - apply bind_ok in H as (b & Eb & H). apply bind_ok in H as (bs & Ebs & H). injection H as <-. destruct (IH _ _ Ebs) as (L & K). split; [cbn; rewrite L; reflexivity|].
    intros [|k] x E.
    + injection E as <-. exists b. rewrite Nat.add_0_r. auto.
    + destruct (K k x E) as (y & Y1 & Y2). exists y. split; [exact Y1|]. replace (i + Datatypes.S k)%nat with (Datatypes.S i + k)%nat by lia. exact Y2.
Qed.
Lemma nth_combine {A B} (l : list A) (l' : list B) : forall i x y, nth_error l i = Some x -> nth_error l' i = Some y -> nth_error (combine l l') i = Some (x, y).
Proof. revert l'. induction l as [|a l IH]; intros [|b l'] [|i] x y E E'; try discriminate; cbn in *; [congruence|apply IH; assumption]. Qed.

Lemma prefix_spec x : forall s, prefix x s = true <-> exists b, s = x ++ b.
Proof.
  induction x as [|a x IH]; intros s.
  - split; [intros _; exists s; reflexivity|]. intros _. destruct s; reflexivity.
  - destruct s as [|c s]; [split; [discriminate|intros (b & E); discriminate E]|]. cbn. destruct (ascii_dec a c) as [->|N].
    + rewrite IH. split; intros (b & E); exists b; [rewrite E; reflexivity|]. cbn in E. congruence.
    + split; [discriminate|]. intros (b & E). cbn in E. congruence.
Qed.
Lemma contains_spec x s : contains x s = true <-> exists a b, s = a ++ x ++ b.
Proof.
  induction s as [|c s IH]; cbn [contains].
  - rewrite orb_false_r, prefix_spec. split; [intros (b & E); exists "", b; exact E|]. intros (a & b & E). destruct a; [exists b; exact E|discriminate E].
  - rewrite orb_true_iff, prefix_spec, IH. split.
    + intros [(b & E)|(a & b & E)]; [exists "", b; exact E|]. exists (String c a), b. rewrite E. reflexivity.
    + intros (a & b & E). destruct a as [|a0 a]; [left; exists b; exact E|]. right. exists a, b. cbn in E. congruence.
Qed.

Theorem kill_rows n b u b' rows : rotation_rows n b u = Ok (b', rows) ->
  exists tk tk' qu' hits xs, db_init (b_stats b) (b_library b) = Ok tk /\ get_skill_timing b = Ok b'
    /\ get_damage_instances tk (b_queue b') = Ok (tk', qu', hits) /\ in_time_order hits xs /\ List.length rows = List.length xs
    /\ forall i x, nth_error xs i = Some x -> exists cells, nth_error rows i = Some (di_time x, cells)
         /\ (~ limit_break (sk_name (di_skill x)) -> exists r, row_of (b_stats b) x = Ok r
               /\ cells = map (fun j => fst (fst (sample_cell r (rd_sample u i j)))) (seq 0 n))
         /\ (limit_break (sk_name (di_skill x)) -> forall c, sm_cond (di_modifier x) = [c] -> get_lb_damage c n (rd_lb u i) = Ok cells).
Proof.
  intros H. unfold rotation_rows in H.
  apply bind_ok in H as (tk & Et & H). apply bind_ok in H as (b1 & Eb & H). apply bind_ok in H as ([[tk' qu'] insts] & Ei & H).
  apply bind_ok in H as (sim & Es & H). apply bind_ok in H as (rp & Er & H). apply bind_ok in H as (m & Em & H).
  apply bind_ok in H as (rs & Ers & H). injection H as <- <-.
  destruct (sim_rows _ _ _ Es) as (Ss & _ & _ & R). destruct (cells_at _ _ _ _ Em) as (Lm & K). destruct (mapM_i_nth _ _ _ _ Ers) as (L & N).
  exists tk, tk', qu', insts, (ds_instances sim). split; [exact Et|]. split; [exact Eb|]. split; [exact Ei|]. split; [rewrite Ss; apply sorted_in_order|].
  split. { rewrite L, combine_length, Lm. assert (E : List.length (ds_instances sim) = List.length (dt_rows (ds_tracker sim))) by (clear - R; induction R; cbn; congruence). lia. }
  intros i x E. destruct (sim_row_at _ _ _ _ _ Es E) as (row & Erow & Hrow).
  destruct (N i _ (nth_combine _ _ i x _ E (K i row Erow))) as (y & Y1 & Y2). cbn [Nat.add] in Y2. apply bind_ok in Y2 as (cells & El & Y2). injection Y2 as <-.
  exists cells. split; [exact Y1|]. unfold lb_row in El. split.
  - intros NL. destruct (contains "LB" (sk_name (di_skill x))) eqn:C; [destruct NL; apply contains_spec, C|]. injection El as <-. exists row. split; [exact Hrow|].
    rewrite map_map. reflexivity.
  - intros Y c Ec. apply contains_spec in Y. rewrite Y in El. rewrite Ec in El. exact El.
Qed.

(** ** Channeling: windows are read after finalization, once and for all *)

Lemma process_open st u st' : ch_process st u = Ok st' -> ch_final st' = false.
Proof.
  destruct u as [[t s] m]. unfold ch_process, process_channeling. destruct (ch_final st) eqn:F; [discriminate|].
  destruct (contains WAIT_PREFIX (sk_name s)); [intros [= <-]; first [exact F|reflexivity]|]. intros H. apply bind_ok in H as (sp & _ & H).
  destruct sp as [c|], (ch_current st) as [[[start cur] uses]|].
  - unfold start_channeling in H. cbn in H. injection H as <-. first [exact F|reflexivity].
  - unfold start_channeling in H. destruct (ch_current st); [discriminate|]. injection H as <-. first [exact F|reflexivity].
  - destruct (smem (sk_name s) (ch_allowlist cur)); [destruct (ext_pos (ext_subz uses 1))|]; injection H as <-; first [exact F|reflexivity].
  - injection H as <-. first [exact F|reflexivity].
Qed.
Lemma channel_protocol l st : foldM ch_process l ch_init = Ok st ->
  get_channeling_windows st = Err AssertionError
  /\ exists st' ws, ch_finalize st = Ok st' /\ get_channeling_windows st' = Ok ws /\ channel_run l = Ok ws
     /\ ch_finalize st' = Err AssertionError /\ forall u, ch_process st' u = Err AssertionError.
Proof.
  intros H. assert (F : ch_final st = false).
  { assert (K : forall l s0, ch_final s0 = false -> forall s1, foldM ch_process l s0 = Ok s1 -> ch_final s1 = false).
    { clear. induction l as [|u l IH]; intros s0 F s1 H; [injection H as <-; exact F|]. cbn in H. apply bind_ok in H as (s2 & E & H).
      apply (IH s2 (process_open _ _ _ E) s1 H). }
    apply (K l ch_init eq_refl st H). }
  unfold get_channeling_windows at 1. rewrite F. split; [reflexivity|]. unfold channel_run. rewrite H. cbn [bind]. unfold ch_finalize at 1 2. rewrite F.
  eexists. eexists. split; [reflexivity|]. cbn. split; [reflexivity|]. split; [reflexivity|]. split; [reflexivity|]. intros [[t s] m]. reflexivity.
Qed.
