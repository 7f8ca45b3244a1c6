(** * Facts about the shipped skills (C52-C62) *)

From Coq Require Import ZArith QArith List String Bool Lia.
From Verif Require Import Base BaseFacts Strings Types Lookup SpecCond CondFacts Library LibraryFacts Combo
  SpecGame Py PyFacts GameLib GameFacts GameCheck ExampleCheck GamePoints GameLoad GameCounter.
Import ListNotations.
Open Scope string_scope.
Open Scope Z_scope.

(** All skills of a job: its own, the generic ones and the limit breaks. *)
Definition full (ps : list skill) (x : loaded_job) : list skill :=
  ((snd x ++ generic_list ps) ++ lbs_list (lj_job x))%list.
(** Generic skills and limit breaks have reserved names and no tables. *)
Definition plain (t : skill) : Prop := forall p, part_of p t -> reserved (sk_name p) = true /\ keys_of_skill p = [].
Lemma part_inv p s : part_of p s -> p = s \/ exists fu, In fu (follow_ups_of s) /\ part_of p (fu_skill fu).
Proof. intros H. inversion H; subst; eauto. Qed.
Lemma plain_alone t : follow_ups_of t = [] -> reserved (sk_name t) = true -> keys_of_skill t = [] -> plain t.
Proof.
  intros F R K p P. apply part_inv in P as [->|(fu & I & _)]; [auto|]. rewrite F in I. destruct I.
Qed.
Lemma plain_family t : reserved (sk_name t) = true -> keys_of_skill t = [] ->
  Forall (fun fu => plain (fu_skill fu)) (follow_ups_of t) -> plain t.
Proof.
  intros R K F p P. apply part_inv in P as [->|(fu & I & P)]; [auto|]. rewrite Forall_forall in F. exact (F fu I p P).
Qed.
Lemma plain_generic r l ps j t :
  mapM (fun nm => pot_skill r l (fst nm) (snd nm)) (pots r) = Ok ps -> map sk_name ps = map fst (pots r) ->
  In t (generic_list ps) \/ In t (lbs_list j) -> plain t.
Proof.
  intros P M I. unfold generic_list in I. rewrite !in_app_iff in I. destruct I as [[I|[I|I]]|I].
  - assert (R : reserved (sk_name t) = true).
    { apply (in_map sk_name) in I. rewrite M in I. revert I. unfold pots.
      destruct (vlit_pos V70 <=? r), (vlit_pos V705 <=? r); cbn [app map fst In]; intros I;
        repeat (destruct I as [<-|I]; [reflexivity|]); destruct I. }
    assert (X : forall l0 ps0, mapM (fun nm => pot_skill r l (fst nm) (snd nm)) l0 = Ok ps0 -> In t ps0 ->
              exists nm, pot_skill r l (fst nm) (snd nm) = Ok t).
    { induction l0 as [|nm l0 IH]; intros ps0 H J; cbn [mapM] in H; [injection H as <-; destruct J|].
      apply bind_ok in H as (y & E & H). apply bind_ok in H as (q & E' & H). injection H as <-.
      destruct J as [->|J]; eauto. }
    destruct (X _ _ P I) as (nm & E). unfold pot_skill in E. apply bind_ok in E as (a & _ & E).
    apply bind_ok in E as (b & _ & E). injection E as <-. apply plain_alone; [reflexivity | exact R | reflexivity].
  - cbn [In] in I. destruct I as [<-|[<-|[<-|[]]]]; apply plain_family; try reflexivity;
      repeat (apply Forall_cons; [apply plain_alone; reflexivity|]); apply Forall_nil.
  - unfold wait_skills in I. apply in_map_iff in I as (n & <- & _). apply plain_alone; [reflexivity | | reflexivity].
    unfold reserved. cbn [wait_skill plain_skill sk_name]. rewrite wait_prefix. reflexivity.
  - apply lbs_list_in in I. cbn [tank_lbs healer_lbs melee_lbs caster_lbs ranged_lbs app In] in I.
    repeat (destruct I as [<-|I]; [apply plain_alone; reflexivity|]). destruct I.
Qed.

Lemma library_point v lv lib :
  create_skill_library v lv = Ok lib ->
  exists js ps, lib = point_lib v lv js ps
    /\ load_jobs (ver_rank v) (lev_rank lv) = Ok js
    /\ mapM (fun nm => pot_skill (ver_rank v) (lev_rank lv) (fst nm) (snd nm)) (pots (ver_rank v)) = Ok ps
    /\ map lj_job js = job_names (ver_rank v) /\ NoDup (map lj_job js)
    /\ (forall x, In x js -> NoDup (map sk_name (full ps x)))
    /\ facts_at (ver_rank v) (lev_rank lv) js = true.
Proof.
  intros C. assert (L : loads v lv) by (apply loads_iff; eauto).
  destruct (loaded v lv L) as (js & ps & J & P & N & K & Q & M & F & E).
  rewrite C in E. injection E as ->. destruct (loaded_nodup js ps _ _ N K M J) as [N1 N2].
  exists js, ps. split; [reflexivity|]. split; [exact J|]. split; [exact P|]. split; [exact N|]. split; [exact N1|].
  split; [exact N2 | exact F].
Qed.

(** ** Content *)

Lemma shipped_name v lv lib n j s :
  create_skill_library v lv = Ok lib -> get_skill lib n j = Ok s -> sk_name s = n.
Proof. intros C G. exact (proj1 (shipped v lv lib n j s C G)). Qed.

Lemma shipped_jobs v lv lib :
  create_skill_library v lv = Ok lib ->
  get_jobs lib = (["DRK"; "GNB"; "PLD"; "WAR"; "AST"; "SCH"; "SGE"; "WHM"; "BRD"; "DNC"; "MCH"; "BLM"; "RDM"; "SMN"]
    ++ (if str_leb "7.0" v then ["PCT"] else []) ++ ["DRG"; "MNK"; "NIN"; "RPR"; "SAM"]
    ++ (if str_leb "7.0" v then ["VPR"] else []))%list.
Proof.
  intros C. destruct (library_point v lv lib C) as (js & ps & -> & _ & _ & N & _).
  unfold point_lib. rewrite get_jobs_lib_of, N. unfold job_names.
  change 3 with (vlit_pos V70). rewrite (ver_rank_ge v V70). reflexivity.
Qed.
Lemma shipped_meta v lv lib :
  create_skill_library v lv = Ok lib -> lib_version lib = v /\ lib_level lib = lv.
Proof. intros C. destruct (library_point v lv lib C) as (js & ps & -> & _). split; reflexivity. Qed.

(** The skills of a job are exactly those its class declares and the common ones. *)
Lemma shipped_exactly v lv lib c cs gen lbs n s :
  create_skill_library v lv = Ok lib ->
  In c (loaded_classes (ver_rank v)) -> load_class (ver_rank v) (lev_rank lv) c = Ok cs ->
  generic_skills (ver_rank v) (lev_rank lv) = Ok gen -> lbs_of (cs_job cs) = Ok lbs ->
  (get_skill lib n (cs_job cs) = Ok s <->
   sk_name s = n /\ ((exists own, cs_skills cs = Ok own /\ In s own) \/ In s gen \/ In s lbs)).
Proof.
  intros C I LC G LB. destruct (library_point v lv lib C) as (js & ps & -> & J & P & N & N1 & N2 & _).
  unfold load_jobs in J.
  assert (X : forall cl js, mapM (load_job (ver_rank v) (lev_rank lv)) cl = Ok js -> In c cl ->
              exists own, class_list cs = Ok own /\ In (cs, own) js).
  { clear - LC. induction cl as [|d cl IH]; intros js H I; [destruct I|]. cbn [mapM] in H.
    apply bind_ok in H as (y & E & H). apply bind_ok in H as (js' & E' & H). injection H as <-.
    destruct I as [->|I].
    - unfold load_job in E. rewrite LC in E. cbn [bind] in E. apply bind_ok in E as (own & E1 & E).
      injection E as <-. exists own. cbn. auto.
    - destruct (IH js' E' I) as (own & A & B). exists own. cbn. auto. }
  destruct (X _ _ J I) as (own & CL & IX). clear X.
  unfold generic_skills in G. rewrite P in G. cbn [bind] in G.
  assert (EG : gen = generic_list ps) by (unfold generic_list; congruence). clear G. subst gen.
  rewrite (point_get v lv js ps (cs_job cs) n s N1 N2).
  assert (EX : lbs_list (cs_job cs) = lbs) by (unfold lbs_list; rewrite LB; reflexivity). rewrite EX.
  assert (U : forall x, In x js -> lj_job x = cs_job cs -> x = (cs, own)).
  { clear - N1 IX. intros x I E. induction js as [|z js IH]; [destruct I|]. inversion N1 as [|? ? A B]; subst.
    destruct I as [->|I], IX as [Y|Y]; [exact Y | exfalso; apply A; rewrite E; exact (in_map lj_job _ _ Y) | | auto].
    exfalso. apply A. rewrite Y. unfold lj_job at 1. cbn [fst]. rewrite <- E. exact (in_map lj_job _ _ I). }
  split.
  - intros (E & x & Ix & Ex & H). split; [exact E|]. rewrite (U x Ix Ex) in H. cbn [snd] in H.
    rewrite !in_app_iff in H. destruct H as [[H|H]|H]; auto.
    left. exists own. split; [|exact H]. unfold class_list in CL.
    destruct (cs_skills cs) as [l|e]; [congruence|]. destruct e; try discriminate. injection CL as <-. destruct H.
  - intros (E & H). split; [exact E|]. exists (cs, own). split; [exact IX|]. split; [reflexivity|].
    cbn [snd]. rewrite !in_app_iff. destruct H as [(o & Ho & H)|[H|H]]; auto.
    left. left. unfold class_list in CL. rewrite Ho in CL. injection CL as ->. exact H.
Qed.

Lemma wait_skills_in k : 0 <= k < 1000 -> In (wait_skill (10 * k)) wait_skills.
Proof.
  intros K. unfold wait_skills. apply in_map_iff. exists (Z.to_nat k). split; [rewrite Z2Nat.id by lia; reflexivity|].
  apply in_seq. lia.
Qed.
Lemma shipped_common v lv lib j s :
  create_skill_library v lv = Ok lib -> In j (get_jobs lib) ->
  In s ([death_skill; weakness_skill; brink_skill] ++ wait_skills) -> get_skill lib (sk_name s) j = Ok s.
Proof.
  intros C I H. destruct (library_point v lv lib C) as (js & ps & -> & J & P & N & N1 & N2 & _).
  unfold point_lib in I. rewrite get_jobs_lib_of in I. apply in_map_iff in I as (x & <- & I).
  apply point_get; [exact N1 | exact N2|]. split; [reflexivity|]. exists x. split; [exact I|]. split; [reflexivity|].
  apply in_or_app. left. apply in_or_app. right. unfold generic_list. apply in_or_app. right. exact H.
Qed.

Lemma facts_empty r l js x :
  facts_at r l js = true -> In x js -> (snd x = [] <-> lj_job x = "VPR" /\ r = 6).
Proof.
  unfold facts_at. cbv zeta. rewrite !andb_true_iff. intros [_ F] I. rewrite forallb_forall in F.
  specialize (F x I). apply eqb_prop in F. destruct (snd x).
  - symmetry in F. apply andb_true_iff in F as [A B]. apply String.eqb_eq in A. apply Z.eqb_eq in B. tauto.
  - split; [discriminate|]. intros [A B]. rewrite A, B in F. discriminate.
Qed.
(** Strictly between two of the versions the definitions know. *)
Lemma rank_6 v : ver_rank v = 6 <-> between "7.01" v "7.05".
Proof.
  unfold between. change "7.01" with (vlit_name V701). rewrite <- (ver_rank_gt v V701).
  pose proof (cmp_version OLt v V705) as E. cbn [cmp_bool str_cmp] in E.
  change "7.05" with (vlit_name V705). rewrite <- E. cbn [vlit_pos].
  destruct (Z.compare_spec (ver_rank v) 7); rewrite Z.ltb_lt; intuition (try discriminate; try lia).
Qed.
Lemma shipped_viper_empty v lv lib n s :
  create_skill_library v lv = Ok lib -> between "7.01" v "7.05" -> get_skill lib n "VPR" = Ok s -> reserved n = true.
Proof.
  intros C B G. apply rank_6 in B.
  destruct (library_point v lv lib C) as (js & ps & -> & J & P & N & N1 & N2 & F).
  apply point_get in G as (<- & x & I & E & H); [|exact N1|exact N2].
  rewrite (proj2 (facts_empty _ _ _ x F I) (conj E B)) in H. cbn [app] in H.
  destruct (loaded v lv) as (js' & ps' & J' & P' & _ & _ & _ & M & _); [apply loads_iff; eauto|].
  rewrite P in P'. injection P' as <-.
  assert (Q : In (sk_name s) (generic_names (vlit_pos V70 <=? ver_rank v) (vlit_pos V705 <=? ver_rank v))).
  { unfold generic_names, generic_list in *. rewrite !in_app_iff in H.
    destruct H as [[H|[H|H]]|H].
    - apply in_or_app. left. apply in_or_app. left. apply (in_map sk_name) in H. rewrite M in H. unfold pots in H.
      destruct (vlit_pos V70 <=? ver_rank v), (vlit_pos V705 <=? ver_rank v); exact H.
    - apply in_or_app. left. apply in_or_app. right. apply in_or_app. left.
      apply (in_map sk_name) in H. exact H.
    - apply in_or_app. left. apply in_or_app. right. apply in_or_app. right. apply in_map, H.
    - apply in_or_app. right. unfold lbs_list in H. destruct (lbs_of "VPR") as [lb|] eqn:L; [|destruct H].
      apply (in_map sk_name) in H. rewrite (lbs_names _ _ L) in H. exact H. }
  pose proof (generic_names_reserved (vlit_pos V70 <=? ver_rank v) (vlit_pos V705 <=? ver_rank v)) as R.
  rewrite forallb_forall in R. apply R, Q.
Qed.
Lemma shipped_own v lv lib j :
  create_skill_library v lv = Ok lib -> In j (get_jobs lib) -> (j = "VPR" -> ~ between "7.01" v "7.05") ->
  exists n s, get_skill lib n j = Ok s /\ reserved n = false.
Proof.
  intros C I B. destruct (library_point v lv lib C) as (js & ps & -> & J & P & N & N1 & N2 & F).
  unfold point_lib in I. rewrite get_jobs_lib_of in I. apply in_map_iff in I as (x & <- & I).
  destruct (snd x) as [|s l] eqn:E.
  - apply (facts_empty _ _ _ x F I) in E as [E1 E2]. exfalso. apply (B E1). apply rank_6, E2.
  - exists (sk_name s), s. split.
    + apply point_get; [exact N1|exact N2|]. split; [reflexivity|]. exists x. split; [exact I|]. split; [reflexivity|].
      rewrite E. cbn. auto.
    + destruct (loaded v lv) as (js' & ps' & J' & _ & _ & K & _); [apply loads_iff; eauto|].
      rewrite J in J'. injection J' as <-. rewrite forallb_forall in K. specialize (K x I).
      unfold job_ok in K. rewrite !andb_true_iff in K. destruct K as [[[_ R] _] _].
      rewrite forallb_forall in R. rewrite E in R. specialize (R (sk_name s) (or_introl eq_refl)).
      apply negb_true_iff, R.
Qed.

(** Only the position of the version among the known ones matters. *)
Lemma same_position v v' lv lib lib' :
  (forall x, In x ["6.55"; "7.0"; "7.01"; "7.05"; "7.1"] -> str_ltb x v = str_ltb x v' /\ (v = x <-> v' = x)) ->
  create_skill_library v lv = Ok lib -> create_skill_library v' lv = Ok lib' ->
  lib_skills lib = lib_skills lib' /\ lib_priority lib = lib_priority lib'
  /\ lib_resources lib = lib_resources lib' /\ lib_breakers lib = lib_breakers lib'.
Proof.
  intros H C C'.
  assert (R : ver_rank v = ver_rank v').
  { unfold ver_rank. cbn [fold_right vlits vlit_name].
    assert (E : forall x, In x ["6.55"; "7.0"; "7.01"; "7.05"; "7.1"] -> str_ltb x v = str_ltb x v' /\ String.eqb x v = String.eqb x v').
    { intros x I. destruct (H x I) as [A B]. split; [exact A|].
      destruct (String.eqb_spec x v) as [Q|M], (String.eqb_spec x v') as [Q'|M']; try reflexivity; exfalso.
      - apply M'. symmetry. apply B. symmetry. exact Q.
      - apply M. symmetry. apply B. symmetry. exact Q'. }
    repeat match goal with |- context [str_ltb ?x v] => let A := fresh in let B := fresh in
      destruct (E x ltac:(cbn; tauto)) as [A B]; rewrite A, B; clear A B end.
    reflexivity. }
  destruct (library_point v lv lib C) as (js & ps & -> & J & P & _).
  destruct (library_point v' lv lib' C') as (js' & ps' & -> & J' & P' & _).
  rewrite R in J, P. rewrite J in J'. rewrite P in P'. injection J' as <-. injection P' as <-.
  repeat split.
Qed.

(** ** Parts *)

Definition part_facts v lv lib n j s p :
  create_skill_library v lv = Ok lib -> get_skill lib n j = Ok s -> part_of p s ->
  exists sks rs, part_ok j sks rs p = true
    /\ (forall t, In t sks -> get_skill lib (sk_name t) j = Ok t)
    /\ (exists d, get_all_resource_settings lib j = Ok d /\ forall x, In x rs -> In x (map fst d)).
Proof.
  intros C G P. destruct (shipped v lv lib n j s C G) as (_ & sks & rs & K & T & R).
  exists sks, rs. split; [|auto]. unfold skill_ok in K. apply andb_true_iff in K as [_ K].
  exact (all_parts_sound _ p s P 6 K).
Qed.

Lemma shipped_lookups v lv lib n j s p m :
  create_skill_library v lv = Ok lib -> get_skill lib n j = Ok s -> part_of p s -> NoDup (sm_cond m) ->
  all_lookups_succeed p m
  /\ (~ (j = "MCH" /\ sk_name p = "Automaton Queen") -> exists f, get_follow_up_skills p m = Ok f).
Proof.
  intros C G P N. destruct (part_facts v lv lib n j s p C G P) as (sks & rs & K & _).
  unfold part_ok in K. cbv zeta in K. rewrite !andb_true_iff in K. destruct K as [[[[[[[[[K _] _] _] _] _] _] _] _] _].
  destruct (lookups_ok_sound _ p m K N) as [A B]. split; [exact A|]. intros X. apply B.
  apply negb_true_iff. unfold except_follow_ups. apply andb_false_iff.
  destruct (String.eqb_spec j "MCH"), (String.eqb_spec (sk_name p) "Automaton Queen"); auto. tauto.
Qed.
Lemma shipped_timed v lv lib n j s m :
  create_skill_library v lv = Ok lib -> get_skill lib n j = Ok s -> NoDup (sm_cond m) ->
  exists t, get_timing_spec s m = Ok (Some t) /\ sane_timing t.
Proof.
  intros C G N. destruct (shipped v lv lib n j s C G) as (_ & sks & rs & K & _).
  unfold skill_ok in K. apply andb_true_iff in K as [T K]. apply (all_parts_sound _ s s (part_self s)) in K.
  unfold part_ok in K. cbv zeta in K. rewrite !andb_true_iff in K. destruct K as [[[[[[[[[K Nm] _] _] _] _] _] _] _] _].
  unfold lookups_ok in K. rewrite !andb_true_iff in K. destruct K as [[[[[[[_ K] _] _] _] _] _] _].
  destruct (timedb_sound s m T K N) as (t & E). exists t. split; [exact E|].
  unfold numbers_ok in Nm. rewrite !andb_true_iff in Nm. destruct Nm as [[Nm _] _]. rewrite forallb_forall in Nm.
  apply timing_okb_sound, Nm. unfold timings_of, cvalues, get_timing_spec, cspec_get in *.
  destruct (sk_timing s) as [|x|d]; [discriminate | injection E as <-; left; reflexivity|].
  destruct (table_ok_lookup d (sm_cond m) K N) as (k & v' & I & E'). rewrite E in E'. injection E' as <-.
  apply in_flat_map. exists (k, Some t). cbn. auto.
Qed.
Lemma shipped_numbers v lv lib n j s p :
  create_skill_library v lv = Ok lib -> get_skill lib n j = Ok s -> part_of p s ->
  (forall t, In t (timings_of p) -> sane_timing t) /\ (forall d, In d (damages_of p) -> sane_damage d)
  /\ (forall e, In e (effects_of p) -> sane_effect e) /\ (forall fu, In fu (follow_ups_of p) -> 0 <= fu_delay fu).
Proof.
  intros C G P. destruct (part_facts v lv lib n j s p C G P) as (sks & rs & K & _).
  unfold part_ok in K. cbv zeta in K. rewrite !andb_true_iff in K. destruct K as [[[[[[[[[_ K] _] D] _] _] _] _] _] _].
  unfold numbers_ok in K. rewrite !andb_true_iff in K. destruct K as [[A B] E]. unfold delays_ok in D.
  rewrite forallb_forall in A, B, E, D. split; [|split; [|split]]; intros x I.
  - apply timing_okb_sound, A, I.
  - apply damage_okb_sound, B, I.
  - apply effect_okb_sound, E, I.
  - apply Z.leb_le, D, I.
Qed.
Lemma shipped_dots v lv lib n j s p fu :
  create_skill_library v lv = Ok lib -> get_skill lib n j = Ok s -> part_of p s -> In fu (follow_ups_of p) ->
  match fu_dot fu with
  | Some d => damages_of (fu_skill fu) <> [] /\ (forall x, In x (damages_of (fu_skill fu)) -> is_dot x) /\ 0 <= d
              /\ (~ (j = "MCH" /\ sk_name p = "Flamethrower") -> 0 < d /\ d mod 3000 = 0)
  | None => forall x, In x (damages_of (fu_skill fu)) -> ~ is_dot x
  end.
Proof.
  intros C G P I. destruct (part_facts v lv lib n j s p C G P) as (sks & rs & K & _).
  unfold part_ok in K. cbv zeta in K. rewrite !andb_true_iff in K. destruct K as [[[[[[[[[_ _] K] _] _] _] _] _] _] _].
  unfold dot_ok in K. rewrite forallb_forall in K. specialize (K fu I). cbv zeta in K.
  destruct (fu_dot fu) as [d|].
  - rewrite !andb_true_iff in K. destruct K as [[[K1 K2] K3] K4].
    split; [destruct (damages_of (fu_skill fu)); [discriminate|congruence]|].
    split; [intros x X; rewrite forallb_forall in K1; apply is_dotb_spec, K1, X|].
    split; [apply Z.leb_le, K3|]. intros X.
    assert (E : except_ticks j (sk_name p) = false).
    { unfold except_ticks. apply andb_false_iff.
      destruct (String.eqb_spec j "MCH"), (String.eqb_spec (sk_name p) "Flamethrower"); auto. tauto. }
    rewrite E in K4. cbn [negb orb] in K4. apply andb_true_iff in K4 as [K4 K5].
    apply Z.ltb_lt in K4. apply Z.eqb_eq in K5. auto.
  - intros x X D. apply is_dotb_spec in D. rewrite forallb_forall in K. specialize (K x X). rewrite D in K. discriminate.
Qed.
Lemma shipped_resources v lv lib n j s p c :
  create_skill_library v lv = Ok lib -> get_skill lib n j = Ok s -> part_of p s -> In c (changes_of p) ->
  jr_clear_all c = true \/
  exists d, get_all_resource_settings lib j = Ok d /\ In (jr_name c) (map fst d).
Proof.
  intros C G P I. destruct (part_facts v lv lib n j s p C G P) as (sks & rs & K & _ & d & D & R).
  unfold part_ok in K. cbv zeta in K. rewrite !andb_true_iff in K. destruct K as [[[[[[[[[_ _] _] _] K] _] _] _] _] _].
  unfold resources_ok in K. rewrite forallb_forall in K. specialize (K c I). apply orb_true_iff in K as [K|K]; [auto|].
  right. exists d. split; [exact D|]. apply R, smem_spec, K.
Qed.
Lemma shipped_combos v lv lib n j s p c a :
  create_skill_library v lv = Ok lib -> get_skill lib n j = Ok s -> part_of p s ->
  In c (combos_of p) -> In a (combo_actions c) ->
  ~ (j = "RDM" /\ sk_name p = "Enchanted Moulinet Trois") ->
  exists t q c', get_skill lib a j = Ok t /\ part_of q t /\ In c' (combos_of q) /\ combo_group c' = combo_group c.
Proof.
  intros C G P I Ia X. destruct (part_facts v lv lib n j s p C G P) as (sks & rs & K & T & _).
  unfold part_ok in K. cbv zeta in K. rewrite !andb_true_iff in K. destruct K as [[[[[[[[[_ _] _] _] _] K] _] _] _] _].
  apply orb_true_iff in K as [K|K].
  - exfalso. apply X. unfold except_combo in K. apply andb_true_iff in K as [A B].
    apply String.eqb_eq in A. apply String.eqb_eq in B. auto.
  - unfold combo_ok in K. rewrite forallb_forall in K. specialize (K c I). rewrite forallb_forall in K.
    specialize (K a Ia). apply existsb_exists in K as (t & It & K). apply andb_true_iff in K as [E K].
    apply String.eqb_eq in E. apply some_part_sound in K as (q & Q & K). apply existsb_exists in K as (c' & Ic & K).
    exists t, q, c'. split; [rewrite <- E; apply T, It|]. apply Z.eqb_eq in K. auto.
Qed.
Lemma except_reach_spec j n : except_reach j n = true -> no_target j n.
Proof.
  unfold except_reach, no_target. rewrite !orb_true_iff, !andb_true_iff, smem_spec, !String.eqb_eq. tauto.
Qed.
Lemma shipped_reach v lv lib n j s p e al :
  create_skill_library v lv = Ok lib -> get_skill lib n j = Ok s -> part_of p s ->
  In e (effects_of p) -> se_allowlist e = Some al -> ~ no_target j (sk_name p) ->
  exists t q, get_skill lib (sk_name t) j = Ok t /\ part_of q t /\ In (sk_name q) al.
Proof.
  intros C G P I A X. destruct (part_facts v lv lib n j s p C G P) as (sks & rs & K & T & _).
  unfold part_ok in K. cbv zeta in K. rewrite !andb_true_iff in K. destruct K as [[[[[[[[[_ _] _] _] _] _] K] _] _] _].
  apply orb_true_iff in K as [K|K]; [elim X; apply except_reach_spec, K|].
  unfold reaches_ok in K. rewrite forallb_forall in K. specialize (K e I). rewrite A in K.
  apply existsb_exists in K as (t & It & K). apply some_part_sound in K as (q & Q & K).
  exists t, q. split; [apply T, It|]. split; [exact Q|]. apply smem_spec, K.
Qed.
Lemma except_matter_spec j n : except_matter j n = true -> no_reader j n.
Proof.
  unfold except_matter, no_reader. rewrite !orb_true_iff, !andb_true_iff, smem_spec, !String.eqb_eq. tauto.
Qed.
Lemma Qeq_bool_true a b : (a == b)%Q -> Qeq_bool a b = true.
Proof. intros H. apply Qeq_bool_iff, H. Qed.
Lemma ext_eqb_refl e : ext_eqb e e = true.
Proof. destruct e; cbn; [apply Z.eqb_refl | reflexivity]. Qed.
Lemma neutralb_complete e : only_a_condition e -> neutralb e = true.
Proof.
  unfold only_a_condition, neutralb.
  intros ((A & B & D & E & F & G & H) & I & J & K & L & M & N & O).
  rewrite !Qeq_bool_true, I, J, K, L, M, N, O by assumption. reflexivity.
Qed.
Lemma neutralb_sound e : neutralb e = true -> only_a_condition e.
Proof.
  unfold only_a_condition, neutralb. rewrite !andb_true_iff, !Qeq_bool_iff, Z.eqb_eq, negb_true_iff.
  intros [[[[[[[[[[[[A B] D] E] F] G] H] I] J] K] L] M] N].
  assert (flat_cast_time_reduction e = Fin 0).
  { destruct (flat_cast_time_reduction e); cbn in I; [apply Z.eqb_eq in I; congruence | discriminate]. }
  destruct (se_crit e); try discriminate. destruct (se_dh e); try discriminate.
  destruct (expires_status_effects e); [|discriminate]. tauto.
Qed.
Lemma allowsb_spec e n : allowsb e n = true <-> allows e n.
Proof. unfold allowsb, allows. destruct (se_allowlist e); [apply smem_spec | tauto]. Qed.
Lemma mentionsb_spec s c : mentionsb s c = true <-> mentions s c.
Proof.
  unfold mentionsb, mentions. rewrite existsb_exists. split; intros (k & I & H); exists k; (split; [exact I|]);
    apply smem_spec, H.
Qed.
Lemma shipped_matters v lv lib n j s p e :
  create_skill_library v lv = Ok lib -> get_skill lib n j = Ok s -> part_of p s ->
  In e (effects_of p) -> only_a_condition e -> ~ no_reader j (sk_name p) -> ~ no_target j (sk_name p) ->
  exists t q, get_skill lib (sk_name t) j = Ok t /\ part_of q t /\ allows e (sk_name q) /\ mentions q (sk_name p).
Proof.
  intros C G P I A X Y. destruct (part_facts v lv lib n j s p C G P) as (sks & rs & K & T & _).
  unfold part_ok in K. cbv zeta in K. rewrite !andb_true_iff in K. destruct K as [[[[[[[[[_ _] _] _] _] _] _] K] _] _].
  rewrite !orb_true_iff in K. destruct K as [[K|K]|K];
    [elim X; apply except_matter_spec, K | elim Y; apply except_reach_spec, K|].
  unfold matters_ok in K. rewrite forallb_forall in K. specialize (K e I).
  rewrite (neutralb_complete e A) in K. cbn [negb orb] in K.
  apply existsb_exists in K as (t & It & K). apply some_part_sound in K as (q & Q & K).
  apply andb_true_iff in K as [K1 K2].
  exists t, q. split; [apply T, It|]. split; [exact Q|]. split; [apply allowsb_spec, K1 | apply mentionsb_spec, K2].
Qed.
Lemma shipped_miss v lv lib n j s p c m m' a :
  create_skill_library v lv = Ok lib -> get_skill lib n j = Ok s -> part_of p s ->
  ~ (j = "MNK" /\ sk_name p = "Snap Punch") ->
  c = "No Combo" \/ c = "No Positional" -> NoDup (sm_cond m) -> NoDup (sm_cond m') -> has_also c m m' ->
  get_damage_spec p m = Ok (Some a) ->
  exists b, get_damage_spec p m' = Ok (Some b) /\ (potency a <= potency b)%Q.
Proof.
  intros C G P X Hc N N' H E. destruct (part_facts v lv lib n j s p C G P) as (sks & rs & K & _).
  unfold part_ok in K. cbv zeta in K. rewrite !andb_true_iff in K. destruct K as [[[[[[[[[L _] _] _] _] _] _] _] K] _].
  apply orb_true_iff in K as [K|K].
  - exfalso. apply X. unfold except_miss in K. apply andb_true_iff in K as [A B].
    apply String.eqb_eq in A. apply String.eqb_eq in B. auto.
  - unfold lookups_ok in L. rewrite !andb_true_iff in L. destruct L as [[[[[[[L _] _] _] _] _] _] _].
    apply (miss_ok_sound p c m m' a L K); auto. unfold misses. cbn. intuition.
Qed.
Lemma part_trans q p s : part_of q p -> part_of p s -> part_of q s.
Proof. intros Q P. induction P as [s|s fu p I _ IH]; [exact Q|]. exact (part_follow_up s fu q I (IH Q)). Qed.
Lemma worth_spec v lv lib n j s p m fs own :
  create_skill_library v lv = Ok lib -> get_skill lib n j = Ok s -> part_of p s ->
  get_follow_up_skills p m = Ok fs ->
  exists qs, Forall2 follow_up_potency fs qs /\ worth own fs = fold_right Qplus own qs.
Proof.
  intros C G P F. exists (map fu_worth fs). split; [|reflexivity].
  assert (I : forall fu, In fu fs -> In fu (follow_ups_of p)).
  { intros fu I. unfold get_follow_up_skills, tspec_get, follow_ups_of in *. destruct (sk_follow_ups p) as [l|d].
    - injection F as ->. exact I.
    - destruct d as [|kv d]; [injection F as <-; destruct I|].
      apply bind_ok in F as (k & _ & F). unfold of_option in F. destruct (cget k (kv :: d)) as [x|] eqn:E; [|discriminate].
      injection F as ->. apply in_flat_map. clear - E I. revert E. induction (kv :: d) as [|[k0 x0] l IH]; cbn; [discriminate|].
      destruct (cond_eqb k k0); intros E.
      + injection E as ->. exists (k0, fs). cbn. auto.
      + destruct (IH E) as (x & A & B). eauto. }
  clear F. induction fs as [|fu fs IH]; cbn [map]; constructor; [|apply IH; intros x X; apply I; right; exact X].
  assert (Q : part_of (fu_skill fu) s).
  { apply (part_trans _ p); [|exact P]. econstructor; [apply I; left; reflexivity | constructor]. }
  destruct (shipped_lookups v lv lib n j s (fu_skill fu) default_modifier C G Q (NoDup_nil _)) as [((d & D) & _) _].
  exists (match d with Some x => potency x | None => 0%Q end). split; [exists d; auto|].
  unfold fu_worth. rewrite D. destruct d; reflexivity.
Qed.
Lemma press_miss v lv lib n j s p c m m' a :
  create_skill_library v lv = Ok lib -> get_skill lib n j = Ok s -> part_of p s ->
  ~ (j = "MNK" /\ sk_name p = "Snap Punch") ->
  c = "No Combo" \/ c = "No Positional" -> NoDup (sm_cond m) -> NoDup (sm_cond m') -> has_also c m m' ->
  press_potency p m a -> exists b, press_potency p m' b /\ (a <= b)%Q.
Proof.
  intros C G P X Hc N N' H (own & fs & qs & (d & D & ->) & F & Q & ->).
  destruct (worth_spec v lv lib n j s p m fs (match d with Some x => potency x | None => 0%Q end) C G P F) as (qs' & Q' & W).
  assert (qs = qs') as ->.
  { clear - Q Q'. revert qs' Q'. induction Q as [|fu x fs qs A Q IH]; intros qs' Q'; inversion Q' as [|? y ? qs0 B Q0]; subst; auto.
    f_equal; [|apply IH; assumption].
    destruct A as (p & (d & D & ->) & ->), B as (p' & (d' & D' & ->) & ->). rewrite D in D'. injection D' as <-. reflexivity. }
  rewrite <- W. clear W.
  assert (O : exists d', get_damage_spec p m' = Ok d' /\
    (match d with Some x => potency x | None => 0 end <= match d' with Some x => potency x | None => 0 end)%Q).
  { destruct d as [x|].
    - destruct (shipped_miss v lv lib n j s p c m m' x C G P X Hc N N' H D) as (y & E & L). exists (Some y). auto.
    - destruct (shipped_lookups v lv lib n j s p m' C G P N') as [((y & E) & _) _]. exists y. split; [exact E|].
      destruct y as [y|]; [|apply Qle_refl]. destruct (shipped_numbers v lv lib n j s p C G P) as (_ & S & _).
      destruct (S y) as ((L & _) & _); [|exact L]. clear - E. unfold get_damage_spec, damages_of, cspec_get, cvalues in *.
      destruct (sk_damage p) as [|z|t]; [discriminate | injection E as ->; left; reflexivity|].
      apply bind_ok in E as (k & _ & E). unfold of_option in E. destruct (cget k t) as [z|] eqn:T; [|discriminate].
      injection E as ->. apply in_flat_map. revert T. induction t as [|[k0 x0] l IH]; cbn; [discriminate|].
      destruct (cond_eqb k k0); intros T.
      + injection T as ->. exists (k0, Some y). cbn. auto.
      + destruct (IH T) as (u & A & B). eauto. }
  destruct O as (d' & D' & L). destruct (part_facts v lv lib n j s p C G P) as (sks & rs & K & _).
  unfold part_ok in K. cbv zeta in K. rewrite !andb_true_iff in K. destruct K as [_ [_ [K _]]].
  destruct (follow_miss_ok_sound p c m m' fs K) as (fs' & F' & L'); auto.
  { unfold misses. cbn. intuition. }
  set (o := match d with Some x => potency x | None => 0%Q end) in *.
  set (o' := match d' with Some x => potency x | None => 0%Q end) in *.
  destruct (worth_spec v lv lib n j s p m' fs' o' C G P F') as (qs & Q1 & W).
  exists (fold_right Qplus o' qs). split.
  - exists o', fs', qs. split; [exists d'; auto|]. auto.
  - rewrite <- W. rewrite (worth_split o), (worth_split o'). apply Qplus_le_compat; assumption.
Qed.
Lemma shipped_off_class v lv lib n j s p :
  create_skill_library v lv = Ok lib -> get_skill lib n j = Ok s -> part_of p s ->
  sk_off_class_default p = "" \/ mentions p (sk_off_class_default p).
Proof.
  intros C G P. destruct (part_facts v lv lib n j s p C G P) as (sks & rs & K & _).
  unfold part_ok in K. cbv zeta in K. rewrite !andb_true_iff in K. destruct K as [_ [K _]].
  unfold off_class_ok in K. apply orb_true_iff in K as [K|K]; [left; apply String.eqb_eq, K | right; apply mentionsb_spec, K].
Qed.

(** ** Counterexamples *)

Definition own_or_plain (lib : library) (j : string) (own : list skill) : Prop :=
  forall m t, get_skill lib m j = Ok t -> In t own \/ plain t.
Lemma library_own v lv lib js ps x :
  create_skill_library v lv = Ok lib -> lib = point_lib v lv js ps ->
  load_jobs (ver_rank v) (lev_rank lv) = Ok js ->
  mapM (fun nm => pot_skill (ver_rank v) (lev_rank lv) (fst nm) (snd nm)) (pots (ver_rank v)) = Ok ps ->
  NoDup (map lj_job js) -> (forall x, In x js -> NoDup (map sk_name (full ps x))) -> In x js ->
  own_or_plain lib (lj_job x) (snd x).
Proof.
  intros C -> J P N1 N2 I m t G. apply point_get in G as (_ & y & Iy & E & H); [|exact N1|exact N2].
  assert (y = x) as ->.
  { clear - N1 I Iy E. induction js as [|z js IH]; [destruct I|]. inversion N1 as [|? ? A B]; subst.
    destruct I as [->|I], Iy as [->|K]; auto; exfalso; apply A.
    - rewrite <- E. apply in_map, K.
    - rewrite E. apply in_map, I. }
  rewrite !in_app_iff in H. destruct H as [[H|H]|H]; [left; exact H | |]; right.
  all: destruct (loaded v lv) as (js' & ps' & J' & P' & _ & _ & _ & M & _); [apply loads_iff; eauto|];
    rewrite P in P'; injection P' as <-; apply (plain_generic _ _ ps (lj_job x) t P M); auto.
Qed.
Lemma own_get v lv js ps x s :
  NoDup (map lj_job js) -> (forall x, In x js -> NoDup (map sk_name (full ps x))) -> In x js -> In s (snd x) ->
  get_skill (point_lib v lv js ps) (sk_name s) (lj_job x) = Ok s.
Proof.
  intros N1 N2 I H. apply point_get; [exact N1|exact N2|]. split; [reflexivity|]. exists x. split; [exact I|].
  split; [reflexivity|]. apply in_or_app. left. apply in_or_app. left. exact H.
Qed.
(** What the facts about the loaded classes say about the library. *)
Lemma library_facts v lv lib :
  create_skill_library v lv = Ok lib ->
  exists js, facts_at (ver_rank v) (lev_rank lv) js = true
  /\ (forall j n f, has js j n f = true ->
        exists s own, get_skill lib n j = Ok s /\ f own s = true /\ own_or_plain lib j own)
  /\ (forall j f, has_part js j f = true ->
        exists s own, get_skill lib (sk_name s) j = Ok s /\ f own s = true /\ own_or_plain lib j own).
Proof.
  intros C. destruct (library_point v lv lib C) as (js & ps & E & J & P & _ & N1 & N2 & F). exists js. split; [exact F|].
  split.
  - intros j n f H. unfold has in H. apply existsb_exists in H as (x & I & H).
    destruct (String.eqb_spec (lj_job x) j) as [<-|]; [|discriminate].
    apply existsb_exists in H as (s & Is & H). destruct (String.eqb_spec (sk_name s) n) as [<-|]; [|discriminate].
    exists s, (snd x). split; [rewrite E; apply own_get; assumption|]. split; [exact H|].
    exact (library_own v lv lib js ps x C E J P N1 N2 I).
  - intros j f H. unfold has_part in H. apply existsb_exists in H as (x & I & H).
    destruct (String.eqb_spec (lj_job x) j) as [<-|]; [|discriminate].
    apply existsb_exists in H as (s & Is & H).
    exists s, (snd x). split; [rewrite E; apply own_get; assumption|]. split; [exact H|].
    exact (library_own v lv lib js ps x C E J P N1 N2 I).
Qed.

Lemma queen_fails v lv lib :
  create_skill_library v lv = Ok lib ->
  exists s, get_skill lib "Automaton Queen" "MCH" = Ok s /\ get_follow_up_skills s default_modifier = Err KeyError.
Proof.
  intros C. destruct (library_facts v lv lib C) as (js & F & HS & HP).
  unfold facts_at in F. cbv zeta in F. rewrite !andb_true_iff in F. destruct F as [[[[[[[[[F _] _] _] _] _] _] _] _] _].
  destruct (HS _ _ _ F) as (s & all & G & H & _). exists s. split; [exact G|].
  unfold err_is in H. destruct (get_follow_up_skills s default_modifier) as [|e]; [discriminate|].
  destruct e; try discriminate. reflexivity.
Qed.

Lemma dead_sound lib j s all :
  own_or_plain lib j all -> dead all s = true ->
  exists e al, In e (effects_of s) /\ se_allowlist e = Some al /\
    forall m t q, get_skill lib m j = Ok t -> part_of q t -> ~ In (sk_name q) al.
Proof.
  intros A D. unfold dead in D. apply existsb_exists in D as (e & I & D). unfold dead_effect in D.
  destruct (se_allowlist e) as [al|] eqn:E; [|discriminate]. exists e, al. split; [exact I|]. split; [exact E|].
  apply andb_true_iff in D as [R D]. rewrite forallb_forall in R.
  intros m t q G Q X. destruct (A m t G) as [I'|I'].
  - apply smem_spec in X. pose proof (no_part_sound _ _ t q D I' Q) as K. cbv beta in K. congruence.
  - destruct (I' q Q) as [Y _]. specialize (R _ X). rewrite Y in R. discriminate.
Qed.
Lemma swiftcast_dead v lv lib j :
  create_skill_library v lv = Ok lib -> In j ["AST"; "SCH"; "SGE"] ->
  exists s e al, get_skill lib "Swiftcast" j = Ok s /\ In e (effects_of s) /\ se_allowlist e = Some al /\
    forall m t q, get_skill lib m j = Ok t -> part_of q t -> ~ In (sk_name q) al.
Proof.
  intros C J. destruct (library_facts v lv lib C) as (js & F & HS & HP).
  unfold facts_at in F. cbv zeta in F. rewrite !andb_true_iff in F. destruct F as [[[[[[[[_ A] B] D] _] _] _] _] _].
  assert (H : has js j "Swiftcast" dead = true).
  { cbn in J. destruct J as [<-|[<-|[<-|[]]]]; assumption. }
  destruct (HS _ _ _ H) as (s & all & G & K & L).
  destruct (dead_sound _ j s all L K) as (e & al & X). exists s, e, al. auto.
Qed.

Lemma inert_sound lib j n s all :
  own_or_plain lib j all -> inert n all s = true ->
  exists p e, part_of p s /\ sk_name p = n /\ In e (effects_of p) /\ only_a_condition e /\
    forall m t q, get_skill lib m j = Ok t -> part_of q t -> allows e (sk_name q) -> ~ mentions q n.
Proof.
  intros A D. unfold inert in D. apply some_part_sound in D as (p & P & D).
  destruct (String.eqb_spec (sk_name p) n) as [E|]; [|discriminate]. apply existsb_exists in D as (e & I & D). apply andb_true_iff in D as [D1 D2].
  exists p, e. split; [exact P|]. split; [exact E|]. split; [exact I|]. split; [apply neutralb_sound, D1|].
  intros m t q G Q X Y. destruct (A m t G) as [I'|I'].
  - pose proof (no_part_sound _ _ t q D2 I' Q) as K. cbv beta in K.
    apply allowsb_spec in X. apply mentionsb_spec in Y. rewrite X, Y in K. discriminate.
  - destruct (I' q Q) as [_ Z]. destruct Y as (k & Y & _). rewrite Z in Y. destruct Y.
Qed.
Definition inert_effect (lib : library) (j n : string) : Prop :=
  exists m s p e, get_skill lib m j = Ok s /\ part_of p s /\ sk_name p = n /\ In e (effects_of p)
    /\ only_a_condition e
    /\ forall m t q, get_skill lib m j = Ok t -> part_of q t -> allows e (sk_name q) -> ~ mentions q n.
Lemma inert_effect_intro lib j n s own :
  get_skill lib (sk_name s) j = Ok s -> inert n own s = true -> own_or_plain lib j own -> inert_effect lib j n.
Proof.
  intros G H A. destruct (inert_sound lib j n s own A H) as (p & e & X). exists (sk_name s), s, p, e. auto.
Qed.
Lemma rank_7 v : str_leb "7.0" v = true -> (3 <=? ver_rank v) = true.
Proof. intros H. change "7.0" with (vlit_name V70) in H. rewrite <- (ver_rank_ge v V70) in H. exact H. Qed.
Lemma venoms_inert v lv lib :
  create_skill_library v lv = Ok lib -> str_leb "7.0" v = true -> ~ between "7.01" v "7.05" ->
  inert_effect lib "VPR" "Fellhunter's Venom" /\ inert_effect lib "VPR" "Fellskin's Venom".
Proof.
  intros C V B. destruct (library_facts v lv lib C) as (js & F & HS & HP).
  unfold facts_at in F. cbv zeta in F. rewrite !andb_true_iff in F. destruct F as [[[_ F] _] _].
  rewrite (rank_7 v V) in F.
  assert (R : ver_rank v =? 6 = false) by (apply Z.eqb_neq; rewrite rank_6; exact B). rewrite R in F. cbn [andb negb] in F.
  apply andb_true_iff in F as [F1 F2].
  split; [destruct (HP _ _ F1) as (s & own & A & K & D) | destruct (HP _ _ F2) as (s & own & A & K & D)];
    exact (inert_effect_intro _ _ _ s own A K D).
Qed.
Lemma rank_655 : ver_rank "6.55" = 1. Proof. reflexivity. Qed.
Lemma firestarter_inert lv lib :
  create_skill_library "6.55" lv = Ok lib -> inert_effect lib "BLM" "Firestarter".
Proof.
  intros C. destruct (library_facts _ lv lib C) as (js & F & HS & HP).
  rewrite rank_655 in F.
  unfold facts_at in F. cbv zeta in F. rewrite !andb_true_iff in F. destruct F as [[_ F] _].
  change (1 =? 1) with true in F. cbv iota in F. apply andb_true_iff in F as [F _].
  destruct (HP _ _ F) as (s & own & A & B & D). exact (inert_effect_intro _ _ _ s own A B D).
Qed.

Lemma gets_better_sound s a b :
  gets_better s a b = true ->
  exists x y, get_damage_spec s (cond_modifier a) = Ok (Some x) /\ get_damage_spec s (cond_modifier b) = Ok (Some y)
    /\ (strength y < strength x)%Q.
Proof.
  unfold gets_better. destruct (get_damage_spec s (cond_modifier a)) as [[x|]|]; try discriminate.
  destruct (get_damage_spec s (cond_modifier b)) as [[y|]|]; try discriminate. intros H.
  exists x, y. split; [reflexivity|]. split; [reflexivity|]. apply Qnot_le_lt. intros L. apply Qle_bool_iff in L.
  unfold strength in L. rewrite L in H. discriminate.
Qed.
Lemma snap_punch v lib :
  create_skill_library v 90 = Ok lib -> str_leb "7.0" v = true ->
  exists s x y, get_skill lib "Snap Punch" "MNK" = Ok s
    /\ get_damage_spec s (cond_modifier ["Coeurl's Fury"; "No Positional"]) = Ok (Some x)
    /\ get_damage_spec s (cond_modifier ["Coeurl's Fury"]) = Ok (Some y) /\ (strength y < strength x)%Q.
Proof.
  intros C V. destruct (library_facts _ _ lib C) as (js & F & HS & HP).
  unfold facts_at in F. cbv zeta in F. rewrite !andb_true_iff in F. destruct F as [[[[[_ F] _] _] _] _].
  rewrite (rank_7 v V) in F. change (lev_rank 90) with L90 in F. cbn [andb] in F.
  destruct (HS _ _ _ F) as (s & all & G & K & _).
  apply gets_better_sound in K as (x & y & K). exists s, x, y. auto.
Qed.
Lemma sharp_fire lv lib :
  create_skill_library "6.55" lv = Ok lib ->
  exists s x y, get_skill lib "Fire" "BLM" = Ok s
    /\ get_damage_spec s (cond_modifier ["3 Astral Fire"]) = Ok (Some x)
    /\ get_damage_spec s (cond_modifier ["3 Astral Fire"; "Sharpcast"]) = Ok (Some y) /\ (strength y < strength x)%Q.
Proof.
  intros C. destruct (library_facts _ lv lib C) as (js & F & HS & HP).
  rewrite rank_655 in F.
  unfold facts_at in F. cbv zeta in F. rewrite !andb_true_iff in F. destruct F as [[_ F] _].
  change (1 =? 1) with true in F. cbv iota in F. apply andb_true_iff in F as [_ F].
  destruct (HS _ _ _ F) as (s & all & G & K & _).
  apply gets_better_sound in K as (x & y & K). exists s, x, y. auto.
Qed.

(** A name no skill has is never the last combo action. *)
Definition never_last (n : string) (ct : combo_tracker) : Prop :=
  forall g t, zget g (ct_last ct) <> Some (Some (t, n)).
Lemma never_last_zset n ct g v :
  never_last n ct -> (forall t, v <> Some (t, n)) -> never_last n (mkComboTracker (zset g v (ct_last ct)) (ct_breakers ct)).
Proof.
  intros H V g' t. cbn. rewrite zget_zset. destruct (g' =? g); [|apply H]. intros E. injection E as E. exact (V t E).
Qed.
Lemma never_last_breakers (n : string) c bs : forall l : list (Z * option (Z * string)),
  (forall g t, zget g l <> Some (Some (t, n))) ->
  forall g t, zget g (fold_left (fun l (gb : Z * list Z) =>
                 if existsb (Z.eqb (combo_group c)) (snd gb) then zset (fst gb) None l else l) bs l) <> Some (Some (t, n)).
Proof.
  induction bs as [|[g0 b] bs IH]; intros l H; cbn [fold_left]; [exact H|]. apply IH. cbn [fst snd].
  destruct (existsb (Z.eqb (combo_group c)) b); [|exact H]. intros g t. rewrite zget_zset.
  destruct (g =? g0); [discriminate | apply H].
Qed.
Lemma never_last_step n t m x c st :
  x <> n -> never_last n (fst st) -> never_last n (fst (combo_step t x m st c)).
Proof.
  intros N H. destruct st as [ct ok]. unfold combo_step. cbn [fst] in H.
  destruct (break_all_combos_only c); [intros g t'; cbn; discriminate|].
  set (ct1 := match zget (combo_group c) (ct_last ct) with None => _ | Some _ => ct end).
  assert (H1 : never_last n ct1).
  { unfold ct1. destruct (zget (combo_group c) (ct_last ct)); [exact H|]. apply never_last_zset; [exact H | discriminate]. }
  cbn [fst]. unfold update_combo. intros g t'. cbn [ct_last]. apply never_last_breakers.
  apply (never_last_zset n ct1 (combo_group c) (if combo_succeeded ct1 t c m then Some (t, x) else None) H1).
  intros t0. destruct (combo_succeeded ct1 t c m); [congruence | discriminate].
Qed.
Lemma never_last_fold n t m x l : x <> n -> forall st,
  never_last n (fst st) -> never_last n (fst (fold_left (combo_step t x m) l st)).
Proof.
  intros N. induction l as [|c l IH]; intros st H; cbn [fold_left]; [exact H|]. apply IH, never_last_step; assumption.
Qed.
Definition use_combo (ct : combo_tracker) (u : Z * skill * modifier) : res combo_tracker :=
  let* (ct', _) := compile_and_update_combo ct (fst (fst u)) (snd (fst u)) (snd u) in Ok ct'.
Lemma never_last_uses n uses : forall ct ct',
  (forall u, In u uses -> sk_name (snd (fst u)) <> n) -> never_last n ct ->
  foldM use_combo uses ct = Ok ct' -> never_last n ct'.
Proof.
  induction uses as [|[[t x] m] uses IH]; intros ct ct' U H E; cbn [foldM] in E.
  - injection E as <-. exact H.
  - apply bind_ok in E as (ct1 & E1 & E). apply (IH ct1 ct'); [intros u I; apply U; right; exact I | | exact E].
    unfold use_combo, compile_and_update_combo in E1. cbn [fst snd] in E1.
    destruct (get_combo_spec x m) as [l|]; [|discriminate]. cbn [bind] in E1.
    destruct (fold_left (combo_step t (sk_name x) m) l (ct, true)) as [ct2 ok] eqn:F. cbn [bind] in E1.
    injection E1 as <-. change ct2 with (fst (ct2, ok)). rewrite <- F.
    apply never_last_fold; [exact (U _ (or_introl eq_refl)) | exact H].
Qed.
Lemma trois_fails v lv lib :
  create_skill_library v lv = Ok lib -> str_leb "7.0" v = true ->
  exists s, get_skill lib "Enchanted Moulinet Trois" "RDM" = Ok s /\
  forall breakers uses ct,
    (forall u, In u uses -> exists m y, get_skill lib m "RDM" = Ok y /\ part_of (snd (fst u)) y) ->
    foldM use_combo uses (combo_init breakers) = Ok ct ->
    forall t m, sm_force_combo m = false -> exists ct', compile_and_update_combo ct t s m = Ok (ct', COMBO_FAIL).
Proof.
  intros C V. destruct (library_facts _ lv lib C) as (js & F & HS & HP).
  unfold facts_at in F. cbv zeta in F. rewrite !andb_true_iff in F. destruct F as [[[[[[[[[_ F] _] _] _] _] _] _] _] _].
  rewrite (rank_7 v V) in F.
  destruct (HS _ _ _ F) as (s & all & G & K & L). exists s. split; [exact G|].
  apply andb_true_iff in K as [K1 K2]. intros br uses ct U E t m Fc.
  assert (NL : never_last "Enchanted Deux" ct).
  { refine (never_last_uses _ uses (combo_init br) ct _ _ E); [|intros g t'; cbn; discriminate].
    intros u I X. destruct (U u I) as (k & y & Gy & Py).
    destruct (L k y Gy) as [Iy|Iy].
    - pose proof (no_part_sound _ _ y _ K2 Iy Py) as Q. cbv beta in Q. rewrite X in Q. discriminate.
    - destruct (Iy _ Py) as [R _]. rewrite X in R. discriminate. }
  unfold lone_combo in K1. unfold compile_and_update_combo, get_combo_spec.
  destruct (sk_combo s) as [[|c [|]]|]; try discriminate. cbn [tspec_get bind].
  rewrite !andb_true_iff, !negb_true_iff in K1. destruct K1 as [[K1 Ka] Kb].
  destruct (combo_actions c) as [|a [|]] eqn:Ac; try discriminate. apply String.eqb_eq in K1. subst a.
  cbn [fold_left]. unfold combo_step. rewrite Kb.
  set (ct1 := match zget (combo_group c) (ct_last ct) with None => _ | Some _ => ct end).
  assert (H1 : never_last "Enchanted Deux" ct1).
  { unfold ct1. destruct (zget (combo_group c) (ct_last ct)); [exact NL|]. apply never_last_zset; [exact NL | discriminate]. }
  assert (Fail : combo_succeeded ct1 t c m = false).
  { unfold combo_succeeded. rewrite Ka, Fc, Ac. cbn [orb].
    destruct (zget (combo_group c) (ct_last ct1)) as [[[t0 x]|]|] eqn:Z; try reflexivity.
    destruct (String.eqb_spec x "Enchanted Deux") as [->|Nx]; [exfalso; exact (H1 _ _ Z)|].
    unfold smem. cbn [existsb].
    rewrite (proj2 (String.eqb_neq x "Enchanted Deux") Nx). apply andb_false_r. }
  rewrite Fail. eexists. reflexivity.
Qed.

(** Allow lists that are empty of skills at level 90. *)
Definition dead_effect_of (lib : library) (j n : string) : Prop :=
  exists m s p e al, get_skill lib m j = Ok s /\ part_of p s /\ sk_name p = n /\ In e (effects_of p)
    /\ se_allowlist e = Some al /\ forall m t q, get_skill lib m j = Ok t -> part_of q t -> ~ In (sk_name q) al.
Lemma dead_part_intro lib j n s own :
  get_skill lib (sk_name s) j = Ok s -> dead_part n own s = true -> own_or_plain lib j own -> dead_effect_of lib j n.
Proof.
  intros G H A. unfold dead_part in H. apply some_part_sound in H as (p & P & H).
  destruct (String.eqb_spec (sk_name p) n) as [E|]; [|discriminate].
  destruct (dead_sound _ _ p _ A H) as (e & al & X).
  exists (sk_name s), s, p, e, al. split; [exact G|]. split; [exact P|]. split; [exact E | exact X].
Qed.
Lemma level_90_dead v lib :
  create_skill_library v 90 = Ok lib -> str_leb "7.0" v = true ->
  dead_effect_of lib "PCT" "Rainbow Bright"
  /\ (~ between "7.01" v "7.05" -> dead_effect_of lib "VPR" "Poised for Twinfang").
Proof.
  intros C V. destruct (library_facts _ _ lib C) as (js & F & HS & HP).
  unfold facts_at in F. cbv zeta in F. rewrite !andb_true_iff in F. destruct F as [[[[_ F] _] _] _].
  rewrite (rank_7 v V) in F. change (lev_rank 90) with L90 in F. cbn [andb] in F. apply andb_true_iff in F as [F1 F2].
  split.
  - destruct (HP _ _ F1) as (s & own & A & B & D). exact (dead_part_intro _ _ _ s own A B D).
  - intros B. assert (R : ver_rank v =? 6 = false) by (apply Z.eqb_neq; rewrite rank_6; exact B). rewrite R in F2.
    destruct (HP _ _ F2) as (s & own & A & B' & D). exact (dead_part_intro _ _ _ s own A B' D).
Qed.

(** The job class declares the skill with an aoe_dropoff of [d]. *)
Definition declared (v : string) (lv : Z) (j : string) (s : skill) (d : Q) : Prop :=
  exists c self ds, In c (loaded_classes (ver_rank v)) /\ new_object (ver_rank v) (lev_rank lv) c = Ok self
    /\ lookup_var "self._job_class" self = Ok (VStr j)
    /\ get_declared_skills (ver_rank v) (lev_rank lv) c self = Ok ds /\ In (s, Some d) ds.
Lemma load_job_in r l c : forall cl js,
  mapM (load_job r l) cl = Ok js -> In c cl -> exists x, load_job r l c = Ok x /\ In x js.
Proof.
  induction cl as [|d cl IH]; intros js H I; [destruct I|]. cbn [mapM] in H.
  apply bind_ok in H as (y & E & H). apply bind_ok in H as (js' & E' & H). injection H as <-.
  destruct I as [->|I]; [exists y; cbn; auto|]. destruct (IH js' E' I) as (x & A & B). exists x. cbn. auto.
Qed.
Lemma foul_keeps v lv lib :
  create_skill_library v lv = Ok lib ->
  exists s d x, declared v lv "BLM" s d /\ (0 < d < 1)%Q /\ get_skill lib "Foul" "BLM" = Ok s
    /\ forall m, get_damage_spec s m = Ok (Some x).
Proof.
  intros C. assert (L : loads v lv) by (apply loads_iff; eauto).
  destruct (library_point v lv lib C) as (js & ps & -> & J & _ & _ & N1 & N2 & _).
  apply loads_point in L. pose proof foul_ok as F. rewrite forallb_forall in F.
  specialize (F _ (supported_points _ _ (ver_rank_range v) L)). cbn [fst snd] in F. clear L C.
  unfold foul_at in F. apply existsb_exists in F as (c & Ic & F).
  destruct (new_object (ver_rank v) (lev_rank lv) c) as [self|] eqn:O; [|discriminate].
  destruct (lookup_var "self._job_class" self) as [[ | | | | |j| | | | | | | | | | | | | | ]|] eqn:JC; try discriminate.
  destruct (String.eqb_spec j "BLM") as [->|]; [|discriminate].
  destruct (get_declared_skills (ver_rank v) (lev_rank lv) c self) as [ds|] eqn:D; [|discriminate].
  apply existsb_exists in F as ([s [d|]] & Is & F); [|discriminate].
  destruct (String.eqb_spec (sk_name s) "Foul") as [En|]; [|discriminate].
  destruct (sk_damage s) as [|x|] eqn:Dm; try discriminate. apply andb_true_iff in F as [F1 F2].
  unfold load_jobs in J. destruct (load_job_in _ _ c _ _ J Ic) as ([cs own] & LJ & Ix).
  exists s, d, x. split; [exists c, self, ds; auto|]. split.
  { split; apply Qnot_le_lt; intros X; apply Qle_bool_iff in X; rewrite X in *; discriminate. }
  split; [|intros m; unfold get_damage_spec; rewrite Dm; reflexivity].
  assert (K : lj_job (cs, own) = "BLM" /\ In s own).
  { clear - LJ O JC D Is. unfold load_job, load_class in LJ. rewrite O in LJ. cbn [bind] in LJ. rewrite JC in LJ.
    cbn [bind as_str] in LJ. apply bind_ok in LJ as (cs1 & E & LJ).
    apply bind_ok in E as (p & _ & E). apply bind_ok in E as (b & _ & E). apply bind_ok in E as (rs & _ & E).
    injection E as <-. rewrite D in LJ. unfold class_list in LJ. cbn [cs_skills bind] in LJ. injection LJ as <- <-.
    split; [reflexivity|]. change s with (fst (s, Some d)). apply in_map, Is. }
  destruct K as [K1 K2]. rewrite <- En. rewrite <- K1. apply own_get; assumption.
Qed.

(** ** Corollaries in the form of the claims *)

Lemma not_loads_default : ~ loads "6.55" 100.
Proof. intros [[E _]|[_ E]]; discriminate. Qed.
Lemma patch_10 lv : create_skill_library "10.0" lv = Err AssertionError.
Proof.
  rewrite not_loaded.
  - change (str_ltb "6.55" "10.0") with false. rewrite andb_false_r. reflexivity.
  - intros [[_ [E|E]]|[_ E]]; discriminate.
Qed.
Lemma shipped_contents v lv lib :
  create_skill_library v lv = Ok lib ->
  lib_version lib = v /\ lib_level lib = lv /\
  get_jobs lib = (["DRK"; "GNB"; "PLD"; "WAR"; "AST"; "SCH"; "SGE"; "WHM"; "BRD"; "DNC"; "MCH"; "BLM"; "RDM"; "SMN"]
    ++ (if str_leb "7.0" v then ["PCT"] else []) ++ ["DRG"; "MNK"; "NIN"; "RPR"; "SAM"]
    ++ (if str_leb "7.0" v then ["VPR"] else []))%list.
Proof.
  intros C. destruct (shipped_meta v lv lib C) as [A B]. split; [exact A|]. split; [exact B|].
  exact (shipped_jobs v lv lib C).
Qed.
Lemma shipped_waits v lv lib j k :
  create_skill_library v lv = Ok lib -> In j (get_jobs lib) -> 0 <= k < 1000 ->
  exists s, get_skill lib (wait_name (10 * k)) j = Ok s
    /\ damages_of s = [] /\ effects_of s = [] /\ follow_ups_of s = []
    /\ forall m, get_timing_spec s m = Ok (Some (mkTiming 0 2500 (10 * k) 0 true true)).
Proof.
  intros C J K. exists (wait_skill (10 * k)). split.
  - change (wait_name (10 * k)) with (sk_name (wait_skill (10 * k))). apply (shipped_common v lv lib j _ C J).
    apply in_or_app. right. apply wait_skills_in, K.
  - repeat split; reflexivity.
Qed.
Lemma shipped_deaths v lv lib j n :
  create_skill_library v lv = Ok lib -> In j (get_jobs lib) -> In n ["Death"; "Weakness"; "Brink of Death"] ->
  exists s, get_skill lib n j = Ok s
    /\ existsb clear_all_status_effects (flat_map (fun fu => effects_of (fu_skill fu)) (follow_ups_of s)) = true
    /\ existsb break_all_combos_only (flat_map (fun fu => combos_of (fu_skill fu)) (follow_ups_of s)) = true
    /\ existsb jr_clear_all (flat_map (fun fu => changes_of (fu_skill fu)) (follow_ups_of s)) = true.
Proof.
  intros C J I. cbn [In] in I. destruct I as [<-|[<-|[<-|[]]]].
  - exists death_skill. split; [|repeat split].
    apply (shipped_common v lv lib j death_skill C J). apply in_or_app. left. left. reflexivity.
  - exists weakness_skill. split; [|repeat split].
    apply (shipped_common v lv lib j weakness_skill C J). apply in_or_app. left. right. left. reflexivity.
  - exists brink_skill. split; [|repeat split].
    apply (shipped_common v lv lib j brink_skill C J). apply in_or_app. left. right. right. left. reflexivity.
Qed.
