(** * Damage in whole numbers: the formulas (C84) *)

From Coq Require Import ZArith QArith Qround Qabs List String Bool Lia Lqa Setoid Morphisms.
From Verif Require Import Base BaseFacts Float FloatFacts Strings Types Lookup StatusEffect Stats DamageBuild Damage SpecHit HitOutcomes SpeedFacts ExactFloat
  SpecExact SpecGame ExactFacts.
Import ListNotations.
Open Scope string_scope.
Open Scope Z_scope.
Local Opaque fl dec.

(** What [Stats(...)] makes of a sheet. *)
Lemma sheet_stats h st : stats_of (gear_of h) = Ok st -> forall t md r delay, on_roster h t md r delay ->
  exists c, get_consts (st_version st) (st_level st) = Ok c /\ same_table c t
    /\ st_wd st = q (h_wd h) /\ st_weapon_delay st = dec delay 100 /\ st_main_stat st = q (h_main h) /\ st_det st = q (h_det h)
    /\ st_dh st = q (h_dh h) /\ st_speed st = q (h_speed h) /\ st_tenacity st = Some (q (h_ten h)) /\ st_num_roles st = q (h_roles h)
    /\ st_healer_strength st = Some (q (h_strength h)) /\ ps_job_mod st = q md /\ ps_det_bonus st = fDet c (q (h_det h))
    /\ st_is_tank st = is_tank_role r /\ uses_strength st = is_magic r /\ uses_sks (st_version st) (st_job st) = negb (is_magic r)
    /\ 0 <= md <= 115.
Proof.
  intros G t md r delay (V & T & u & I & ->). unfold stats_of, gear_of in G.
  cbn [g_wd g_delay g_main g_det g_dh g_crit g_speed g_job g_version g_ten g_roles g_healer g_level] in G.
  destruct (table_consts (h_version h) (h_level h) t V T) as (c & Ec & S). destruct (roster_facts (h_version h) _ _ _ _ V I) as (J1 & J2 & J3 & J4 & J5 & J6 & J7 & J8).
  unfold make_stats in G. rewrite Ec in G. cbn [bind] in G. rewrite J1 in G. cbn [bind] in G.
  apply bind_ok in G as (red & _ & G). rewrite J6 in G.
  assert (G' : exists w, w = dec (match h_delay h with Some z => z | None => u end) 100
    /\ Ok (mkStats (q (h_wd h)) w (q (h_main h)) (q (h_det h)) (q (h_dh h)) (q (h_crit h)) (q (h_speed h)) (h_job h) (h_version h)
         (Some (q (h_ten h))) (q (h_roles h)) (Some (q (h_strength h))) (h_level h)
         (crit_rate_of c (q (h_crit h))) (crit_bonus_of c (q (h_crit h))) (fDet c (q (h_det h))) (dh_rate_of c (q (h_dh h)))
         (q md) (trait_damage_mult_of (h_version h) (h_job h)) red red) = Ok st).
  { destruct (h_delay h) as [z|]; cbn [bind of_option] in G; eexists; (split; [reflexivity | exact G]). }
  destruct G' as (w & -> & G'). injection G' as <-. exists c. unfold st_is_tank, uses_strength. cbn. rewrite J2, J3, J4, Ec.
  repeat (split; [reflexivity || assumption|]). exact J7.
Qed.

Section Hit.
  Variables (h : sheet) (st : stats) (c : consts) (t : table) (md : Z) (r : role) (delay : Z).
  Hypothesis T : table_at (h_level h) = Some t.
  Hypothesis S : same_table c t.
  Hypothesis Q : sensible h.
  Hypothesis Wd : st_wd st = q (h_wd h).
  Hypothesis Dl : st_weapon_delay st = dec delay 100.
  Hypothesis Mn : st_main_stat st = q (h_main h).
  Hypothesis Dt : st_det st = q (h_det h).
  Hypothesis Dh : st_dh st = q (h_dh h).
  Hypothesis Sp : st_speed st = q (h_speed h).
  Hypothesis Tn : st_tenacity st = Some (q (h_ten h)).
  Hypothesis Rl : st_num_roles st = q (h_roles h).
  Hypothesis Hs : st_healer_strength st = Some (q (h_strength h)).
  Hypothesis Jm : ps_job_mod st = q md.
  Hypothesis Pd : ps_det_bonus st = fDet c (q (h_det h)).
  Hypothesis Tk : st_is_tank st = is_tank_role r.
  Hypothesis Us : uses_strength st = is_magic r.
  Hypothesis Sk : uses_sks (st_version st) (st_job st) = negb (is_magic r).
  Hypothesis Mb : 0 <= md <= 115.
  Hypothesis Db : 0 <= delay <= 1000.
  Variables (d : damage_spec) (m : modifier) (e : effects2) (a a' p pm scale : Z) (dh : bool).
  Hypothesis A : adds_points (fst e) a.
  Hypothesis A' : adds_points (snd e) a'.
  Hypothesis Ap : 0 <= a.
  Hypothesis Ap' : 0 <= a'.
  Hypothesis Af : fits (h_main h + (a + a')).
  Hypothesis W : whole_spec md d p pm scale.
  Hypothesis F : forced_dh F_YES d m e = dh.

  Ltac slim := try clear T; try clear S; try clear Q; try clear Wd; try clear Dl; try clear Mn; try clear Dt; try clear Dh; try clear Sp; try clear Tn; try clear Rl; try clear Hs; try clear Jm; try clear Pd; try clear Tk; try clear Us; try clear Sk; try clear A; try clear A'; try clear W; try clear F.
  Ltac clia := slim; lia.
  Ltac cnia := slim; nia.
  Lemma h_det_exact : (det_dh_of c st d m e == inject_Z (det_of t h dh))%Q /\ Z.abs (det_of t h dh) <= 4000.
  Proof.
    destruct Q as (_ & _ & _ & F1 & F2 & _). unfold det_dh_of, det_of. rewrite F, Dt, Dh, Pd. case dh.
    - apply (detdh_exact c t (h_level h) T S _ _ F1 F2).
    - destruct (det_exact c t (h_level h) T S _ F1) as (E & B). rewrite Z.add_0_r. split; [exact E | clia].
  Qed.
  Lemma h_ten_exact : (fTnc c (q (h_ten h)) == inject_Z (ten_of t h))%Q /\ Z.abs (ten_of t h) <= 2100.
  Proof. destruct Q as (_ & _ & _ & _ & _ & _ & _ & F1 & _). apply (tnc_exact c t (h_level h) T S _ F1). Qed.
  Lemma h_speed_exact : (fSpd c (st_speed st) == inject_Z (speed_of t h))%Q /\ Z.abs (speed_of t h) <= 2400.
  Proof. destruct Q as (_ & _ & _ & _ & _ & _ & F1 & _). rewrite Sp. apply (spd_exact c t (h_level h) T S _ F1). Qed.
  Lemma h_weapon_exact x k : (x == q k)%Q -> 0 <= k <= 200 -> (fWD c (st_wd st) x == inject_Z (weapon_of t k h))%Q /\ Z.abs (weapon_of t k h) <= 600.
  Proof.
    intros X K. destruct Q as (F1 & _). rewrite Wd. destruct (wd_exact c t (h_level h) T S _ k F1 K) as (E & B).
    split; [|unfold weapon_of; clia]. unfold weapon_of. rewrite <- E. unfold fWD. rewrite X. reflexivity.
  Qed.
  Lemma h_power_exact : (fAP c (party_main_stat st e) (st_is_tank st) == inject_Z (power_of t r (party_stat h (a + a'))))%Q
    /\ Z.abs (power_of t r (party_stat h (a + a'))) <= 12000.
  Proof.
    destruct Q as (_ & _ & F1 & _ & _ & _ & _ & _ & F2 & _). unfold fits in *.
    assert (B : (buffed_main_stat (st_main_stat st) e == inject_Z (h_main h + (a + a')))%Q).
    { apply buffed_exact; try assumption; try clia. rewrite Mn. reflexivity. }
    destruct (party_exact _ (h_main h + (a + a')) (h_roles h) B ltac:(clia) F2) as (E & P).
    assert (PB : party_bonus st = bonus (h_roles h)) by (unfold party_bonus, bonus; rewrite Rl; reflexivity).
    unfold party_main_stat. rewrite PB, E, Tk. fold (party_stat h (a + a')) in *.
    assert (P' : 0 <= party_stat h (a + a') <= 21000).
    { unfold party_stat. split; [apply P|]. apply Z.div_le_upper_bound; cnia. }
    destruct (table_sane _ _ T) as (S1 & _ & _ & S4 & S5 & _).
    split.
    - rewrite (ap_exact c t (h_level h) T S _ (party_stat h (a + a'))) by (reflexivity || clia). reflexivity.
    - unfold power_of, step_of. set (s := if is_tank_role r then _ else _).
      assert (SB : 0 <= s <= 240) by (unfold s; destruct (is_tank_role r); clia).
      assert (Z.abs (s * (party_stat h (a + a') - base_main t) / base_main t) <= 11900); [|clia].
      assert (TT : (base_main t = 390 /\ s <= 195) \/ (base_main t = 440 /\ s <= 237)).
      { unfold s. clear - T. unfold table_at in T. destruct (h_level h =? 90); [|destruct (h_level h =? 100); [|discriminate]]; injection T as <-;
          cbn [base_main ap_step ap_step_tank]; destruct (is_tank_role r); clia. }
      apply abs_div; [clia|clia|]. pose proof (abs_mul s (party_stat h (a + a') - base_main t) s 20610 ltac:(clia) ltac:(clia)). cnia.
  Qed.

  (** Guaranteed hits gain nothing without rate bonuses, and the multiplier is 1. *)
  Lemma finish_exact x b : (x == inject_Z b)%Q -> Z.abs b < 2 ^ 50 -> (finish_damage st d m e x == inject_Z b)%Q.
  Proof.
    intros X B. destruct A as (_ & _ & A1 & A2). destruct A' as (_ & _ & A3 & A4). destruct W as (_ & _ & W1 & _).
    assert (Z0 : (fadd 0 0 == 0)%Q) by reflexivity. assert (ZM : forall y, (fmul y 0 == 0)%Q).
    { intros y. unfold fmul. rewrite Qmult_0_r. apply fl_0. }
    unfold finish_damage.
    assert (D1 : (dh_bonus_multiplier d m e == 0)%Q).
    { unfold dh_bonus_multiplier. destruct (forced_dh F_YES d m e); [|reflexivity]. rewrite A2, A4, Z0. apply ZM. }
    assert (D2 : (crit_bonus_multiplier st d m e == 0)%Q).
    { unfold crit_bonus_multiplier. destruct (forced_crit F_YES d m e); [|reflexivity]. rewrite A1, A3, Z0. apply ZM. }
    rewrite D1, D2, W1, X, !ZM.
    assert (Fz : (ffloor 0 == 0)%Q) by reflexivity. rewrite Fz, Z0. unfold fadd, fmul. rewrite Qplus_0_r, Qmult_1_r, !fl_int by clia. reflexivity.
  Qed.

  Lemma tenacity_step n : Z.abs n <= 25000000 ->
    exists k, tenacity cut t r h n k /\ Z.abs k <= 60000000
      /\ forall x, (x == inject_Z n)%Q -> exists y, with_tnc c st (fdiv x (q 100)) = Ok y /\ (y == fdiv (inject_Z k) (q 100))%Q.
  Proof.
    intros N. unfold tenacity, with_tnc. rewrite Tk. case_eq (is_tank_role r); intros IT.
    - destruct h_ten_exact as (E & B). pose proof (abs_mul n (ten_of t h) _ _ N B) as NB.
      exists (Qfloor (fdiv (fmul (fdiv (inject_Z n) (q 100)) (fTnc c (q (h_ten h)))) (q 10))).
      assert (C : cut (n * ten_of t h) 1000 (Qfloor (fdiv (fmul (fdiv (inject_Z n) (q 100)) (fTnc c (q (h_ten h)))) (q 10)))).
      { apply hundredth_tenth; [reflexivity|exact E|clia]. }
      split; [exact C|]. split.
      + pose proof (cut_abs (n * ten_of t h) 1000 _ 52500000 ltac:(clia) ltac:(clia) ltac:(clia) C). clia.
      + intros x X. unfold tnc_of. rewrite Tn. cbn [of_option bind]. eexists. split; [reflexivity|].
        unfold ffloor. apply fdiv_compat; [|reflexivity]. apply inject_Z_injective. apply Qfloor_comp. rewrite X. reflexivity.
    - exists n. split; [reflexivity|]. split; [clia|]. intros x X. eexists. split; [reflexivity|]. rewrite X. reflexivity.
  Qed.
  (** The common part of the physical formulas. *)
  Lemma ap_det_step x ap : (x == inject_Z ap)%Q -> Z.abs ap <= 200000 ->
    exists k k', cut (p * ap / 100 * det_of t h dh) 1000 k /\ tenacity cut t r h k k' /\ Z.abs k' <= 60000000
      /\ exists y, with_tnc c st (ap_det (potency d) x (det_dh_of c st d m e)) = Ok y /\ (y == fdiv (inject_Z k') (q 100))%Q.
  Proof.
    intros X AB. destruct W as (W1 & W2 & _). destruct h_det_exact as (E & B).
    assert (P : (fmul (potency d) x == inject_Z (p * ap))%Q).
    { rewrite W1, X. apply fmul_int. cnia. }
    assert (PA : Z.abs (p * ap) <= 3000 * 200000) by (apply abs_mul; clia).
    assert (K1 : ffloor (fdiv (fmul (potency d) x) (q 100)) = inject_Z (p * ap / 100)) by (apply ffloor_div; [exact P|clia|clia]).
    pose proof (abs_div (p * ap) 100 6000000 ltac:(clia) ltac:(clia) ltac:(clia)) as PB.
    pose proof (abs_mul (p * ap / 100) (det_of t h dh) _ _ PB B) as PC.
    set (k := Qfloor (fdiv (fmul (fdiv (inject_Z (p * ap / 100)) (q 100)) (det_dh_of c st d m e)) (q 10))).
    assert (C : cut (p * ap / 100 * det_of t h dh) 1000 k) by (apply hundredth_tenth; [reflexivity|exact E|clia]).
    pose proof (cut_abs (p * ap / 100 * det_of t h dh) 1000 k 24000000 ltac:(clia) ltac:(clia) ltac:(clia) C) as KB.
    destruct (tenacity_step k ltac:(clia)) as (k' & C' & KB' & Y). exists k, k'. split; [exact C|]. split; [exact C'|]. split; [exact KB'|].
    unfold ap_det. rewrite K1. apply Y. reflexivity.
  Qed.

  Lemma direct_exact : exists b, direct_hit cut t r md h (a + a') dh p b
    /\ exists x, direct_damage c d m st e = Ok x /\ (x == inject_Z b)%Q.
  Proof.
    destruct h_power_exact as (PE & PB). destruct (h_weapon_exact (ps_job_mod st) md) as (WE & WB); [rewrite Jm; reflexivity|clia|].
    destruct h_det_exact as (DE & DB). destruct W as (W1 & W2 & _).
    unfold direct_damage, direct_hit. rewrite Us. set (ap := power_of t r (party_stat h (a + a'))) in *. set (wd := weapon_of t md h) in *.
    case_eq (is_magic r); intros IM.
    - pose proof (abs_mul ap (det_of t h dh) _ _ PB DB) as B1.
      pose proof (abs_div (ap * det_of t h dh) 1000 48000 ltac:(clia) ltac:(clia) ltac:(clia)) as B2.
      pose proof (abs_mul wd p _ 3000 WB ltac:(clia)) as B3. pose proof (abs_div (wd * p) 100 18000 ltac:(clia) ltac:(clia) ltac:(clia)) as B4.
      pose proof (abs_mul (ap * det_of t h dh / 1000) (wd * p / 100) _ _ B2 B4) as B5.
      rewrite (ffloor_div _ (ap * det_of t h dh) 1000).
      2:{ rewrite PE, DE. apply fmul_int. clia. } 2:{ clia. } 2:{ clia. }
      rewrite (ffloor_div _ (wd * p) 100).
      2:{ rewrite WE, W1. apply fmul_int. clia. } 2:{ clia. } 2:{ clia. }
      set (b := Qfloor (fmul (fdiv (inject_Z (ap * det_of t h dh / 1000)) (q 100)) (inject_Z (wd * p / 100)))).
      assert (C : cut (ap * det_of t h dh / 1000 * (wd * p / 100)) 100 b) by (apply hundredth_times; [reflexivity|reflexivity|clia]).
      exists b. split; [exact C|]. cbn [bind]. eexists. split; [reflexivity|]. apply finish_exact; [reflexivity|].
      pose proof (cut_abs (ap * det_of t h dh / 1000 * (wd * p / 100)) 100 b 8640000 ltac:(clia) ltac:(clia) ltac:(clia) C). clia.
    - destruct (ap_det_step _ ap PE ltac:(clia)) as (k & k' & C & C' & KB & y & Y1 & Y2). rewrite Y1. cbn [bind].
      pose proof (abs_mul k' wd _ _ KB WB) as B1.
      assert (C2 : cut (k' * wd) 100 (Qfloor (fmul (fdiv (inject_Z k') (q 100)) (fWD c (st_wd st) (ps_job_mod st))))).
      { apply hundredth_times; [reflexivity|exact WE|clia]. }
      eexists. split; [exists k, k'; split; [exact C|]; split; [exact C'|exact C2]|].
      eexists. split; [reflexivity|]. apply finish_exact.
      + unfold ffloor. rewrite Qfloor_Z. apply inject_Z_injective, Qfloor_comp. rewrite Y2. reflexivity.
      + pose proof (cut_abs (k' * wd) 100 _ 360000000 ltac:(clia) ltac:(clia) ltac:(clia) C2). clia.
  Qed.

  Lemma magic_tick_exact : exists b, magic_tick t r md h (a + a') dh p b
    /\ exists x, magical_dot_damage c d m st e = Ok x /\ (x == inject_Z b)%Q.
  Proof.
    destruct h_power_exact as (PE & PB). destruct (h_weapon_exact (ps_job_mod st) md) as (WE & WB); [rewrite Jm; reflexivity|clia|].
    destruct h_det_exact as (DE & DB). destruct h_speed_exact as (SE & SB). destruct W as (W1 & W2 & _).
    unfold magical_dot_damage, magic_tick. set (ap := power_of t r (party_stat h (a + a'))) in *. set (wd := weapon_of t md h) in *.
    set (sp := speed_of t h) in *. set (dt := det_of t h dh) in *.
    pose proof (abs_mul p wd 3000 _ ltac:(clia) WB) as B1.
    rewrite (ffloor_eq (fmul (potency d) _) (p * wd)).
    2:{ rewrite WE, W1. apply fmul_int. clia. }
    rewrite (ffloor_div _ (p * wd) 100) by (reflexivity || clia).
    pose proof (abs_div (p * wd) 100 18000 ltac:(clia) ltac:(clia) ltac:(clia)) as B2. set (n0 := p * wd / 100) in *.
    pose proof (abs_mul n0 ap _ _ B2 PB) as B3.
    rewrite (ffloor_eq (fmul (inject_Z n0) _) (n0 * ap)).
    2:{ rewrite PE. apply fmul_int. clia. }
    pose proof (abs_mul (n0 * ap) sp _ _ B3 SB) as B4.
    rewrite (ffloor_eq (fmul (inject_Z (n0 * ap)) _) (n0 * ap * sp)).
    2:{ rewrite SE. apply fmul_int. clia. }
    rewrite (ffloor_eq (inject_Z (n0 * ap * sp)) (n0 * ap * sp)) by reflexivity.
    pose proof (abs_mul (n0 * ap * sp) dt _ _ B4 DB) as B5.
    rewrite (ffloor_eq (fmul (inject_Z (n0 * ap * sp)) _) (n0 * ap * sp * dt)).
    2:{ rewrite DE. apply fmul_int. clia. }
    rewrite (ffloor_div _ (n0 * ap * sp * dt) 1000) by (reflexivity || clia).
    pose proof (abs_div (n0 * ap * sp * dt) 1000 2073600000000 ltac:(clia) ltac:(clia) ltac:(clia)) as B6. set (n1 := n0 * ap * sp * dt / 1000) in *.
    assert (TT : exists y n2, dot_tnc c st (inject_Z n1) = Ok y /\ y = inject_Z n2 /\ Z.abs n2 <= 5000000000000
      /\ n2 = (if is_tank_role r then n1 * ten_of t h / 1000 else n1)).
    { unfold dot_tnc. rewrite Tk. case (is_tank_role r).
      - destruct h_ten_exact as (TE & TB). pose proof (abs_mul n1 (ten_of t h) _ _ B6 TB) as B7.
        unfold tnc_of. rewrite Tn. cbn [of_option bind]. rewrite (ffloor_div _ (n1 * ten_of t h) 1000).
        2:{ rewrite TE. apply fmul_int. clia. } 2:{ clia. } 2:{ clia. }
        do 2 eexists. split; [reflexivity|]. split; [reflexivity|]. split; [|reflexivity].
        apply abs_div; clia.
      - do 2 eexists. split; [reflexivity|]. split; [reflexivity|]. split; [clia|reflexivity]. }
    destruct TT as (y & n2 & E2 & -> & B8 & E3). rewrite E2. cbn [bind]. rewrite <- E3.
    rewrite (ffloor_div _ n2 1000) by (reflexivity || clia).
    pose proof (abs_div n2 1000 5000000000 ltac:(clia) ltac:(clia) ltac:(clia)) as B9.
    rewrite (ffloor_div _ (n2 / 1000) 100) by (reflexivity || clia).
    pose proof (abs_div (n2 / 1000) 100 50000000 ltac:(clia) ltac:(clia) ltac:(clia)) as B10.
    eexists. split; [reflexivity|]. eexists. split; [reflexivity|]. apply finish_exact; [reflexivity|clia].
  Qed.

  Lemma physical_tick_exact : exists b, physical_tick cut t r md h (a + a') dh p b
    /\ exists x, physical_dot_damage c d m st e = Ok x /\ (x == inject_Z b)%Q.
  Proof.
    destruct h_power_exact as (PE & PB). destruct (h_weapon_exact (ps_job_mod st) md) as (WE & WB); [rewrite Jm; reflexivity|clia|].
    destruct h_det_exact as (DE & DB). destruct h_speed_exact as (SE & SB). destruct W as (W1 & W2 & _).
    unfold physical_dot_damage, physical_tick. set (ap := power_of t r (party_stat h (a + a'))) in *. set (wd := weapon_of t md h) in *.
    set (sp := speed_of t h) in *. set (dt := det_of t h dh) in *.
    pose proof (abs_mul p ap 3000 _ ltac:(clia) PB) as B1. pose proof (abs_mul (p * ap) dt _ _ B1 DB) as B2.
    rewrite (ffloor_div _ (p * ap * dt) 100).
    2:{ rewrite PE, DE, W1. unfold q. rewrite (fmul_int p ap) by clia. apply fmul_int. clia. } 2:{ clia. } 2:{ clia. }
    pose proof (abs_div (p * ap * dt) 100 1440000000 ltac:(clia) ltac:(clia) ltac:(clia)) as B3. set (n := p * ap * dt / 100) in *.
    assert (TT : exists y k, dot_tnc c st (fdiv (inject_Z n) (q 1000)) = Ok y
      /\ ffloor (fdiv (ffloor (fmul y (fSpd c (st_speed st)))) (q 1000)) = inject_Z k /\ Z.abs k <= 100000000
      /\ (if is_tank_role r then exists j, cut (n * ten_of t h) 1000000 j /\ k = j * sp / 1000
          else exists j, cut (n * sp) 1000 j /\ k = j / 1000)).
    { unfold dot_tnc. rewrite Tk. case (is_tank_role r).
      - destruct h_ten_exact as (TE & TB). pose proof (abs_mul n (ten_of t h) _ _ B3 TB) as B7.
        unfold tnc_of. rewrite Tn. cbn [of_option bind].
        assert (C : cut (n * ten_of t h) 1000000 (Qfloor (fdiv (fmul (fdiv (inject_Z n) (q 1000)) (fTnc c (q (h_ten h)))) (q 1000)))).
        { apply thousandth_thousandth; [reflexivity|exact TE|clia]. }
        unfold ffloor at 1. set (j := Qfloor (fdiv (fmul (fdiv (inject_Z n) (q 1000)) (fTnc c (q (h_ten h)))) (q 1000))) in *.
        pose proof (cut_abs (n * ten_of t h) 1000000 j 4000000 ltac:(clia) ltac:(clia) ltac:(clia) C) as JB.
        pose proof (abs_mul j sp _ _ JB SB) as B8.
        exists (inject_Z j), (j * sp / 1000). split; [reflexivity|].
        split; [|split; [apply abs_div; clia | exists j; split; [exact C | reflexivity]]].
        rewrite (ffloor_eq (fmul (inject_Z j) _) (j * sp)).
        2:{ rewrite SE. apply fmul_int. clia. }
        apply ffloor_div; [reflexivity|clia|clia].
      - pose proof (abs_mul n sp _ _ B3 SB) as B7.
        assert (C : cut (n * sp) 1000 (Qfloor (fmul (fdiv (inject_Z n) (q 1000)) (fSpd c (st_speed st))))).
        { apply thousandth_times; [reflexivity|exact SE|clia]. }
        set (j := Qfloor (fmul (fdiv (inject_Z n) (q 1000)) (fSpd c (st_speed st)))) in *.
        pose proof (cut_abs (n * sp) 1000 j 3456000000 ltac:(clia) ltac:(clia) ltac:(clia) C) as JB.
        exists (fdiv (inject_Z n) (q 1000)), (j / 1000). split; [reflexivity|].
        split; [|split; [apply abs_div; clia | exists j; split; [exact C | reflexivity]]].
        unfold ffloor at 2. fold j. apply ffloor_div; [reflexivity|clia|clia]. }
    destruct TT as (y & k & E2 & E3 & KB & K). rewrite E2. cbn [bind]. rewrite E3.
    pose proof (abs_mul k wd _ _ KB WB) as B4.
    rewrite (ffloor_eq (fmul (inject_Z k) _) (k * wd)).
    2:{ rewrite WE. apply fmul_int. clia. }
    rewrite (ffloor_div _ (k * wd) 100) by (reflexivity || clia).
    exists (k * wd / 100). split; [exists k; split; [exact K | reflexivity]|].
    eexists. split; [reflexivity|]. apply finish_exact; [reflexivity|].
    pose proof (abs_div (k * wd) 100 600000000 ltac:(clia) ltac:(clia) ltac:(clia)). clia.
  Qed.

  Lemma auto_exact : exists b, auto_hit cut t r md h (a + a') dh p delay b
    /\ exists x, auto_damage c d m st e = Ok x /\ (x == inject_Z b)%Q.
  Proof.
    destruct h_power_exact as (PE & PB). destruct (h_weapon_exact (ps_job_mod st) md) as (WE & WB); [rewrite Jm; reflexivity|clia|].
    destruct h_speed_exact as (SE & SB).
    assert (MM : exists x0 x, (if uses_strength st
        then let* s := of_option RuntimeError (st_healer_strength st) in Ok (fmul s (party_bonus st)) else Ok (party_main_stat st e)) = Ok x0
      /\ auto_power cut t r h (a + a') x /\ (fAP c x0 (st_is_tank st) == inject_Z x)%Q /\ Z.abs x <= 200000).
    { unfold auto_power. rewrite Us. case_eq (is_magic r); intros IM.
      - rewrite Hs. cbn [of_option bind].
        assert (IT : is_tank_role r = false) by (clear - IM; destruct r; (discriminate IM || reflexivity)). rewrite Tk, IT.
        destruct Q as (_ & _ & _ & _ & _ & _ & _ & _ & Rb & Sb). unfold fits in Sb. destruct (bonus_close _ Rb) as (N1 & N2).
        assert (PBn : party_bonus st = bonus (h_roles h)) by (unfold party_bonus, bonus; rewrite Rl; reflexivity). rewrite PBn.
        destruct (ap_cut c t (h_level h) (fmul (q (h_strength h)) (bonus (h_roles h))) (h_strength h * (100 + h_roles h)) T S) as (k & C & E & KB).
        + slim. set (s := h_strength h) in *. set (n := h_roles h) in *.
          assert (M0 : (0 <= inject_Z s)%Q) by (apply (inject_Z_le 0); lia).
          assert (M1 : (inject_Z s <= 20000)%Q) by (apply (inject_Z_le s 20000); lia).
          assert (E : (s * (100 + n) # 100 == inject_Z s * (100 + n # 100))%Q) by (unfold Qeq, Qmult, inject_Z; cbn [Qnum Qden]; lia).
          rewrite E. assert (BN : (100 + n # 100 <= 105 # 100)%Q) by (unfold Qle; cbn [Qnum Qden]; lia).
          assert (B0 : (0 <= 100 + n # 100)%Q) by (unfold Qle; cbn [Qnum Qden]; lia).
          pose proof (fl_error (inject_Z s * bonus n)) as FE. unfold fmul, q. set (y := fl (inject_Z s * bonus n)) in *.
          set (v := (inject_Z s * bonus n)%Q) in *. set (w := (inject_Z s * (100 + n # 100))%Q) in *.
          assert (V1 : (w <= v)%Q) by (unfold v, w; nra).
          assert (V2 : (v <= w + 20000 * (1 # 2 ^ 50))%Q) by (unfold v, w; nra).
          assert (V0 : (0 <= w <= 40000)%Q) by (unfold w; split; nra).
          change (20000 * (1 # 2 ^ 50))%Q with (20000 # 1125899906842624)%Q in V2.
          change (pow2 (-53)) with (1 # 9007199254740992)%Q in FE. rewrite (Qabs_pos v) in FE by lra.
          apply Qabs_Qle_condition in FE. apply Qabs_Qle_condition. change (1 # 2 ^ 30)%Q with (1 # 1073741824)%Q. split; nra.
        + slim. nia.
        + exists (fmul (q (h_strength h)) (bonus (h_roles h))), (100 + k). split; [reflexivity|].
          split; [exists k; split; [exact C | reflexivity]|]. split; [exact E | exact KB].
      - do 2 eexists. split; [reflexivity|]. split; [reflexivity|]. split; [exact PE|clia]. }
    destruct MM as (x0 & x & E0 & AP & E1 & XB). unfold auto_damage, auto_hit. rewrite E0. cbn [bind].
    destruct (ap_det_step _ x E1 XB) as (k & k' & C & C' & KB & y & Y1 & Y2). rewrite Y1. cbn [bind].
    set (sf := if is_magic r then 1000 else speed_of t h).
    assert (SF : ((if uses_sks (st_version st) (st_job st) then fSpd c (st_speed st) else q 1000) == inject_Z sf)%Q /\ Z.abs sf <= 2400).
    { unfold sf. rewrite Sk. case (is_magic r); cbn [negb]; [split; [reflexivity|clia] | split; [exact SE | exact SB]]. }
    destruct SF as (SF & SFB).
    pose proof (abs_mul k' sf _ _ KB SFB) as B1.
    assert (C1 : cut (k' * sf) 100 (Qfloor (fmul y (if uses_sks (st_version st) (st_job st) then fSpd c (st_speed st) else q 1000)))).
    { rewrite (Qfloor_comp _ _ (fmul_compat _ _ Y2 _ _ SF)). apply hundredth_times; [reflexivity|reflexivity|clia]. }
    unfold ffloor at 2. set (j := Qfloor (fmul y _)) in *.
    pose proof (cut_abs (k' * sf) 100 j 1440000000 ltac:(clia) ltac:(clia) ltac:(clia) C1) as JB.
    assert (AE : exists w, cut (weapon_of t md h * delay) 300 w /\ fAuto c (st_wd st) (st_weapon_delay st) (ps_job_mod st) = inject_Z w /\ Z.abs w <= 2100).
    { unfold fAuto. rewrite Dl. fold (fWD c (st_wd st) (ps_job_mod st)).
      pose proof (abs_mul (weapon_of t md h) delay _ 1000 WB ltac:(clia)) as B2.
      assert (C2 : cut (weapon_of t md h * delay) 300 (Qfloor (fmul (fWD c (st_wd st) (ps_job_mod st)) (fdiv (dec delay 100) (q 3))))).
      { apply delay_times; [exact WE|clia]. }
      eexists. split; [exact C2|]. split; [reflexivity|].
      pose proof (cut_abs (weapon_of t md h * delay) 300 _ 2000 ltac:(clia) ltac:(clia) ltac:(clia) C2). clia. }
    destruct AE as (w & C2 & -> & WB2). pose proof (abs_mul j w _ _ JB WB2) as B3.
    assert (C3 : cut (j * w) 10 (Qfloor (fmul (fdiv (inject_Z j) (q 10)) (inject_Z w)))) by (apply tenth_times; [reflexivity|reflexivity|clia]).
    unfold ffloor at 2. set (n := Qfloor (fmul (fdiv (inject_Z j) (q 10)) (inject_Z w))) in *.
    pose proof (cut_abs (j * w) 10 n 320000000000 ltac:(clia) ltac:(clia) ltac:(clia) C3) as NB.
    rewrite (ffloor_div _ n 100) by (reflexivity || clia).
    exists (n / 100). split.
    - exists x, w, k, k', j, n. split; [exact AP|]. split; [exact C2|]. split; [exact C|]. split; [exact C'|]. split; [exact C1|].
      split; [exact C3 | reflexivity].
    - eexists. split; [reflexivity|]. apply finish_exact; [reflexivity|].
      pose proof (abs_div n 100 3200000001 ltac:(clia) ltac:(clia) ltac:(clia)). clia.
  Qed.

  Lemma pet_exact : exists b, pet_hit cut t r md h (a + a') dh p pm scale b
    /\ exists x, pet_damage c d m st e = Ok x /\ (x == inject_Z b)%Q.
  Proof.
    destruct W as (_ & _ & _ & W3 & W4 & W5 & W6). destruct (table_sane _ _ T) as (S1 & _). destruct Q as (_ & _ & F1 & _). unfold fits in *.
    set (jm := match pet_job_mod_override d with Some j => j | None => ps_job_mod st end).
    assert (JM : (jm == q pm)%Q).
    { unfold jm. destruct (pet_job_mod_override d); [exact W3|]. rewrite Jm, W3. reflexivity. }
    destruct (h_weapon_exact jm pm JM W5) as (WE & WB).
    unfold pet_damage, pet_hit. fold jm. cbv zeta.
    assert (EM : c_main c = base_main t) by apply S. rewrite EM.
    assert (B1 : Z.abs (base_main t * md) <= 440 * 115) by (apply abs_mul; clia).
    assert (B2 : Z.abs (base_main t * pm) <= 440 * 200) by (apply abs_mul; clia).
    assert (D1 : ffloor (fdiv (fmul (q (base_main t)) (ps_job_mod st)) (q 100)) = inject_Z (base_main t * md / 100)).
    { apply ffloor_div; [rewrite Jm; apply fmul_int; clia|clia|clia]. }
    assert (D2 : ffloor (fdiv (fmul (q (base_main t)) jm) (q 100)) = inject_Z (base_main t * pm / 100)).
    { apply ffloor_div; [rewrite JM; apply fmul_int; clia|clia|clia]. }
    rewrite D1, D2.
    pose proof (abs_div (base_main t * md) 100 600 ltac:(clia) ltac:(clia) ltac:(clia)) as B3.
    pose proof (abs_div (base_main t * pm) 100 900 ltac:(clia) ltac:(clia) ltac:(clia)) as B4.
    set (diff := base_main t * md / 100 - base_main t * pm / 100) in *.
    assert (DB : Z.abs diff <= 1500) by (unfold diff; clia).
    assert (BE : (buffed_main_stat (fsub (st_main_stat st) (fsub (inject_Z (base_main t * md / 100)) (inject_Z (base_main t * pm / 100)))) e
      == inject_Z (h_main h - diff + (a + a')))%Q).
    { apply buffed_exact; try assumption; try clia. rewrite Mn, fsub_int by clia. fold diff. apply fsub_int. clia. }
    set (main := h_main h - diff + (a + a')) in *. assert (MB : Z.abs main <= 30000) by (unfold main; clia).
    destruct (ap_cut c t (h_level h) (fmul (buffed_main_stat (fsub (st_main_stat st) (fsub (inject_Z (base_main t * md / 100)) (inject_Z (base_main t * pm / 100)))) e)
      (pet_scalar d)) (main * scale) T S) as (k0 & C0 & E0 & XB).
    - assert (NR : near 2 (fmul (buffed_main_stat (fsub (st_main_stat st) (fsub (inject_Z (base_main t * md / 100)) (inject_Z (base_main t * pm / 100)))) e)
          (pet_scalar d)) (inject_Z main * (scale # 100))).
      { unfold fmul. rewrite BE, W4. apply (near_fl 1); [clia|]. apply near_mult_l, dec_near. }
      assert (E : (main * scale # 100 == inject_Z main * (scale # 100))%Q) by (unfold Qeq, Qmult, inject_Z; cbn [Qnum Qden]; clia).
      rewrite E. eapply Qle_trans; [exact NR|]. rewrite <- E.
      assert (MS : Z.abs (main * scale) <= 30000 * 200) by (apply abs_mul; clia).
      assert (AB : (Qabs (main * scale # 100) <= 60000)%Q) by (unfold Qabs, Qle; cbn [Qnum Qden]; clia).
      apply Qle_trans with (inject_Z 2 * ulp * 60000)%Q; [|vm_compute; discriminate].
      apply Qmult_le_l; [reflexivity | exact AB].
    - pose proof (abs_mul main scale _ 200 MB ltac:(clia)). clia.
    - destruct (ap_det_step _ (100 + k0) E0 XB) as (k & k' & C & C' & KB & y & Y1 & Y2). rewrite Y1. cbn [bind].
      pose proof (abs_mul k' (weapon_of t pm h) _ _ KB WB) as B5.
      assert (C2 : cut (k' * weapon_of t pm h) 100 (Qfloor (fmul (fdiv (inject_Z k') (q 100)) (fWD c (st_wd st) jm)))).
      { apply hundredth_times; [reflexivity|exact WE|clia]. }
      eexists. split; [exists k0, k, k'; split; [exact C0|]; split; [exact C|]; split; [exact C'|exact C2]|].
      eexists. split; [reflexivity|]. apply finish_exact.
      + unfold ffloor. rewrite Qfloor_Z. apply inject_Z_injective, Qfloor_comp. rewrite Y2. reflexivity.
      + pose proof (cut_abs (k' * weapon_of t pm h) 100 _ 360000000 ltac:(clia) ltac:(clia) ltac:(clia) C2). clia.
  Qed.

  Lemma class_exact : damage_class d <> DC_UNKNOWN ->
    exists b, hit_of cut t r md h (a + a') dh p (damage_class d) delay pm scale b
    /\ exists x, class_damage c d m st e = Ok x /\ (x == inject_Z b)%Q.
  Proof.
    intros N. unfold class_damage, hit_of.
    destruct (damage_class d); try (destruct (N eq_refl));
      [exact direct_exact | exact magic_tick_exact | exact physical_tick_exact | exact auto_exact | exact pet_exact].
  Qed.
End Hit.
