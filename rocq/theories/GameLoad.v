(** * What a loaded library contains *)

From Coq Require Import ZArith QArith List String Ascii Bool Lia.
From Verif Require Import Base BaseFacts Strings Types Lookup SpecCond CondFacts Library LibraryFacts
  SpecGame Py PyFacts GameLib GameFacts GameCheck GameCounter ExampleCheck GamePoints.
Import ListNotations.
Open Scope string_scope.
Open Scope Z_scope.

(** ** Names *)

Definition generic_names (a b : bool) : list string :=
  (((if a then ["Grade 1 Gemdraught"] else []) ++ (if b then ["Grade 2 Gemdraught"] else [])
    ++ ["Grade 8 Tincture"; "Grade 7 Tincture"]) ++ ["Death"; "Weakness"; "Brink of Death"]
   ++ map sk_name wait_skills) ++ ["LB 1"; "LB 2"; "LB 3"].
Lemma digit_inj a b : 0 <= a < 10 -> 0 <= b < 10 -> digit a = digit b -> a = b.
Proof.
  unfold digit. intros A B E.
  apply (f_equal (fun s => match s with String c _ => N_of_ascii c | EmptyString => 0%N end)) in E. cbv beta iota in E.
  rewrite (N_ascii_embedding (Z.to_N (48 + a))), (N_ascii_embedding (Z.to_N (48 + b))) in E;
    [apply (f_equal Z.of_N) in E; rewrite !Z2N.id in E; lia | |];
    apply N2Z.inj_lt; rewrite Z2N.id by lia; change (Z.of_N 256) with 256; lia.
Qed.
Lemma wait_name_inj i j :
  0 <= i < 1000 -> 0 <= j < 1000 -> wait_name (10 * i) = wait_name (10 * j) -> i = j.
Proof.
  intros I J E. unfold wait_name in E.
  assert (D : forall z, 0 <= z < 1000 ->
    10 * z / 1000 = z / 100 /\ (10 * z / 100) mod 10 = (z / 10) mod 10 /\ (10 * z / 10) mod 10 = z mod 10).
  { intros z Z. replace (10 * z / 1000) with (z / 100) by (change 1000 with (10 * 100); rewrite Z.div_mul_cancel_l; lia).
    replace (10 * z / 100) with (z / 10) by (change 100 with (10 * 10); rewrite Z.div_mul_cancel_l; lia).
    replace (10 * z / 10) with z by (rewrite Z.mul_comm, Z.div_mul; lia). auto. }
  destruct (D i I) as (I1 & I2 & I3). destruct (D j J) as (J1 & J2 & J3). rewrite I1, I2, I3, J1, J2, J3 in E.
  clear D I1 I2 I3 J1 J2 J3.
  assert (P : exists f, (forall z, digit z = String (f z) "")).
  { exists (fun z => ascii_of_N (Z.to_N (48 + z))). reflexivity. }
  destruct P as [f P']. rewrite !P' in E.
  assert (P : forall z w, f z = f w -> digit z = digit w) by (intros z w H; rewrite !P', H; reflexivity).
  change (String "W" (String "a" (String "i" (String "t" (String " " (String (f (i / 100)) (String "."
    (String (f ((i / 10) mod 10)) (String (f (i mod 10)) "s"))))))))
    = String "W" (String "a" (String "i" (String "t" (String " " (String (f (j / 100)) (String "."
    (String (f ((j / 10) mod 10)) (String (f (j mod 10)) "s"))))))))) in E.
  injection E as E1 E2 E3.
  pose proof (Z.div_mod i 100 ltac:(lia)). pose proof (Z.div_mod j 100 ltac:(lia)).
  pose proof (Z.div_mod i 10 ltac:(lia)). pose proof (Z.div_mod j 10 ltac:(lia)).
  pose proof (Z.div_mod (i / 10) 10 ltac:(lia)). pose proof (Z.div_mod (j / 10) 10 ltac:(lia)).
  pose proof (Z.div_div i 10 10 ltac:(lia) ltac:(lia)). pose proof (Z.div_div j 10 10 ltac:(lia) ltac:(lia)).
  pose proof (Z.mod_pos_bound i 10 ltac:(lia)). pose proof (Z.mod_pos_bound j 10 ltac:(lia)).
  pose proof (Z.mod_pos_bound (i / 10) 10 ltac:(lia)). pose proof (Z.mod_pos_bound (j / 10) 10 ltac:(lia)).
  pose proof (Z.mod_pos_bound i 100 ltac:(lia)). pose proof (Z.mod_pos_bound j 100 ltac:(lia)).
  apply P, digit_inj in E1; [|lia|lia]. apply P, digit_inj in E2; [|lia|lia]. apply P, digit_inj in E3; [|lia|lia].
  lia.
Qed.
Lemma nodup_map_in {A B} (f : A -> B) l :
  (forall x y, In x l -> In y l -> f x = f y -> x = y) -> NoDup l -> NoDup (map f l).
Proof.
  induction l as [|x l IH]; cbn; intros F N; [constructor|]. inversion N as [|? ? H N']; subst. constructor.
  - intros I. apply in_map_iff in I as (y & E & I). apply F in E; [subst; auto | auto | auto].
  - apply IH; auto.
Qed.
Lemma wait_names_nodup : NoDup (map sk_name wait_skills).
Proof.
  unfold wait_skills. rewrite map_map. cbn [wait_skill plain_skill sk_name].
  apply nodup_map_in; [|apply seq_NoDup]. intros x y X Y E. apply in_seq in X, Y.
  apply wait_name_inj in E; lia.
Qed.
Lemma wait_prefix i : String.prefix "Wait " (wait_name i) = true.
Proof. unfold wait_name. cbn [append String.prefix]. repeat (destruct (Ascii.ascii_dec _ _); [|congruence]). destruct (_ ++ _)%string; reflexivity. Qed.
Lemma wait_names_prefix n : In n (map sk_name wait_skills) -> String.prefix "Wait " n = true.
Proof.
  unfold wait_skills. rewrite map_map. intros I. apply in_map_iff in I as (x & <- & _). apply wait_prefix.
Qed.
Lemma nodup_app {A} (a b : list A) : NoDup a -> NoDup b -> (forall x, In x a -> ~ In x b) -> NoDup (a ++ b).
Proof.
  induction a as [|x a IH]; cbn; [auto|]. intros H B D. inversion H; subst. constructor.
  - intros I. apply in_app_or in I as [I|I]; [auto | exact (D x (or_introl eq_refl) I)].
  - apply IH; auto.
Qed.
Lemma generic_names_nodup a b : NoDup (generic_names a b).
Proof.
  unfold generic_names. rewrite <- !app_assoc.
  set (A := if a then _ else _). set (B := if b then _ else _).
  rewrite (app_assoc A), (app_assoc (A ++ B)), (app_assoc ((A ++ B) ++ _)).
  assert (F : forallb (fun n => negb (String.prefix "Wait " n))
                (((A ++ B) ++ ["Grade 8 Tincture"; "Grade 7 Tincture"]) ++ ["Death"; "Weakness"; "Brink of Death"]) = true
              /\ str_nodupb ((((A ++ B) ++ ["Grade 8 Tincture"; "Grade 7 Tincture"]) ++ ["Death"; "Weakness"; "Brink of Death"])
                   ++ ["LB 1"; "LB 2"; "LB 3"]) = true)
    by (unfold A, B; destruct a, b; split; reflexivity).
  destruct F as [F N]. apply str_nodupb_sound in N.
  set (H := (((A ++ B) ++ _) ++ _)%list) in *. clearbody H. clear A B.
  rewrite forallb_forall in F.
  assert (NH : NoDup H) by (clear F; induction H as [|x H IH]; [constructor|]; inversion N; subst; constructor;
    [intros X; apply H2, in_or_app; auto | auto]).
  apply nodup_app; [exact NH | apply nodup_app; [apply wait_names_nodup | apply str_nodupb_sound; reflexivity|]|].
  - intros x X Y. apply wait_names_prefix in X. cbn in Y. destruct Y as [<-|[<-|[<-|[]]]]; discriminate.
  - intros x X Y. apply in_app_or in Y as [Y|Y].
    + apply wait_names_prefix in Y. specialize (F x X). rewrite Y in F. discriminate.
    + clear F NH. revert X. induction H as [|h H IH]; [intros []|]. intros [->|X].
      * inversion N; subst. apply H2, in_or_app. auto.
      * inversion N; subst. auto.
Qed.
Lemma generic_names_reserved a b : forallb reserved (generic_names a b) = true.
Proof.
  unfold generic_names. rewrite !forallb_app. rewrite !andb_true_iff.
  split; [split; [destruct a, b; repeat split; reflexivity | split; [reflexivity|]]|reflexivity].
  apply forallb_forall. intros n I. unfold reserved. rewrite (wait_names_prefix n I). reflexivity.
Qed.

Lemma lbs_names j l : lbs_of j = Ok l -> map sk_name l = ["LB 1"; "LB 2"; "LB 3"].
Proof.
  unfold lbs_of. repeat (destruct (smem j _); [intros E; injection E as <-; reflexivity|]). discriminate.
Qed.

Local Opaque wait_skills.
Lemma nodup_app_l {A} (a b : list A) : NoDup (a ++ b) -> NoDup a.
Proof.
  induction a as [|x a IH]; cbn; [constructor|]. intros H. inversion H; subst. constructor; [|auto].
  intros I. apply H2. apply in_or_app. auto.
Qed.

Lemma job_names_nodup x ps (a b : bool) :
  job_ok x = true -> map sk_name ps = ((if a then ["Grade 1 Gemdraught"] else [])
    ++ (if b then ["Grade 2 Gemdraught"] else []) ++ ["Grade 8 Tincture"; "Grade 7 Tincture"])%list ->
  NoDup (map sk_name ((snd x ++ generic_list ps) ++ lbs_list (lj_job x))).
Proof.
  unfold job_ok. rewrite !andb_true_iff. intros [[[N R] [[L _] _]] _] P.
  destruct (lbs_of (lj_job x)) as [lb|] eqn:E; [|discriminate].
  unfold lbs_list. rewrite E. unfold generic_list. rewrite <- app_assoc, map_app.
  assert (G : map sk_name ((ps ++ [death_skill; weakness_skill; brink_skill] ++ wait_skills) ++ lb)%list
              = generic_names a b).
  { rewrite !map_app, P, (lbs_names _ _ E). unfold generic_names. cbn [map].
    change (sk_name death_skill) with "Death". change (sk_name weakness_skill) with "Weakness".
    change (sk_name brink_skill) with "Brink of Death". reflexivity. }
  rewrite G. apply nodup_app; [apply str_nodupb_sound, N | apply generic_names_nodup|].
  intros n I J. rewrite forallb_forall in R. specialize (R n I). apply negb_true_iff in R.
  pose proof (generic_names_reserved a b) as S. rewrite forallb_forall in S. rewrite (S n J) in R. discriminate.
Qed.

(** ** The library of a point *)



Lemma load_foldM r l cs : forall js lib,
  mapM (load_job r l) cs = Ok js ->
  foldM (fun lib c => let* cs := load_class r l c in add_all_skills_from lib cs) cs lib
  = foldM (fun lib x => add_all_skills_from lib (fst x)) js lib.
Proof.
  induction cs as [|c cs IH]; intros js lib H; cbn [mapM] in H.
  - injection H as <-. reflexivity.
  - apply bind_ok in H as (x & E & H). apply bind_ok in H as (js' & E' & H). injection H as <-.
    unfold load_job in E. apply bind_ok in E as (k & E1 & E). apply bind_ok in E as (sk & E2 & E). injection E as <-.
    cbn [foldM fst]. rewrite E1. cbn [bind]. destruct (add_all_skills_from lib k); [|reflexivity].
    cbn [bind]. apply IH, E'.
Qed.

Lemma get_jobs_lib_of v lv js f c : get_jobs (lib_of v lv js f c) = map lj_job js.
Proof. unfold get_jobs, lib_of, dkeys. cbn [lib_skills]. apply keys_of. Qed.

Lemma nodup_job_names r : NoDup (job_names r).
Proof. apply str_nodupb_sound. unfold job_names. destruct (3 <=? r); reflexivity. Qed.

Lemma last_job_last js : forall c1 c2, js <> [] -> last_job js c1 = last_job js c2.
Proof. destruct js; cbn; intros; congruence. Qed.

(** Unfold the first before the second when comparing terms. *)
Strategy expand [load_jobs create_skill_library]. Strategy 1000 [loaded_classes load_class create_at points point_ok mapM].

Lemma load_job_list r l cs : forall js x, mapM (load_job r l) cs = Ok js -> In x js -> class_list (fst x) = Ok (snd x).
Proof.
  induction cs as [|c cs IH]; intros js x H I; cbn [mapM] in H.
  - injection H as <-. destruct I.
  - apply bind_ok in H as (y & E & H). apply bind_ok in H as (js' & E' & H). injection H as <-.
    destruct I as [<-|I]; [|exact (IH js' x E' I)].
    unfold load_job in E. apply bind_ok in E as (k & E1 & E). apply bind_ok in E as (sk & E2 & E).
    injection E as <-. exact E2.
Qed.
Lemma load_jobs_loaded r l js :
  load_jobs r l = Ok js -> forallb job_ok js = true -> forall x, In x js -> well_loaded x.
Proof.
  intros H K x I. rewrite forallb_forall in K. specialize (K x I).
  unfold job_ok in K. rewrite !andb_true_iff in K. destruct K as [[[N _] _] _].
  split; [|apply str_nodupb_sound, N]. unfold load_jobs in H. exact (load_job_list r l (loaded_classes r) js x H I).
Qed.

Local Opaque load_job load_class loaded_classes pot_skill.
Lemma point_library v lv r l :
  point_ok r l = true ->
  exists js ps, load_jobs r l = Ok js /\ mapM (fun nm => pot_skill r l (fst nm) (snd nm)) (pots r) = Ok ps
    /\ map lj_job js = job_names r /\ forallb job_ok js = true /\ forallb (skill_ok "" [] []) ps = true
    /\ map sk_name ps = map fst (pots r)
    /\ facts_at r l js = true
    /\ create_at v lv r l = Ok (point_lib v lv js ps).
Proof.
  unfold point_ok. destruct (load_jobs r l) as [js|] eqn:J; [|discriminate].
  destruct (mapM _ (pots r)) as [ps|] eqn:P; [|discriminate]. rewrite !andb_true_iff. intros [[[[[[[N K] Q] M] F] _] _] _].
  destruct (list_eq_dec string_dec (map lj_job js) (job_names r)) as [N'|]; [|discriminate].
  destruct (list_eq_dec string_dec (map sk_name ps) (map fst (pots r))) as [M'|]; [|discriminate].
  exists js, ps. split; [reflexivity|]. split; [reflexivity|]. split; [exact N'|]. split; [exact K|].
  split; [exact Q|]. split; [exact M'|]. split; [exact F|].
  assert (ND : NoDup (map lj_job js)) by (rewrite N'; apply nodup_job_names).
  assert (NE : js <> []). { intros ->. discriminate N'. }
  assert (W := load_jobs_loaded r l js J K).
  assert (PN : exists a b : bool, map sk_name ps = ((if a then ["Grade 1 Gemdraught"] else [])
    ++ (if b then ["Grade 2 Gemdraught"] else []) ++ ["Grade 8 Tincture"; "Grade 7 Tincture"])%list).
  { exists (vlit_pos V70 <=? r), (vlit_pos V705 <=? r). rewrite M'. unfold pots.
    destruct (vlit_pos V70 <=? r), (vlit_pos V705 <=? r); reflexivity. }
  destruct PN as (a & b & PN).
  assert (NN : forall x, In x js -> NoDup (map sk_name ((snd x ++ generic_list ps) ++ lbs_list (lj_job x)))).
  { intros x I. rewrite forallb_forall in K. eapply job_names_nodup; eauto. }
  assert (LB : forall x, In x js -> lbs_of (lj_job x) = Ok (lbs_list (lj_job x))).
  { intros x I. rewrite forallb_forall in K. specialize (K x I). unfold job_ok in K. rewrite !andb_true_iff in K.
    destruct K as [[_ [[L _] _]] _]. unfold lbs_list. destruct (lbs_of (lj_job x)); [reflexivity|discriminate]. }
  unfold create_at. rewrite (load_foldM r l _ js _ J).
  change (lib_init v lv) with (lib_of v lv [] no_more None).
  rewrite (add_classes_end v lv js [] None W ND). cbn [bind app]. rewrite get_jobs_lib_of.
  rewrite (add_to_jobs_of v lv js (fun _ => generic_skills r l) (fun _ => generic_list ps) js ND);
    [| auto | exact ND | intros x _; unfold generic_skills; rewrite P; reflexivity | ].
  2:{ intros x I. unfold no_more. rewrite app_nil_r. specialize (NN x I). rewrite map_app in NN.
      apply nodup_app_l in NN. exact NN. }
  cbn [bind]. rewrite get_jobs_lib_of.
  rewrite (add_to_jobs_of v lv js lbs_of lbs_list js ND); [| auto | exact ND | exact LB | ].
  2:{ intros x I. rewrite (proj2 (smem_spec _ _)) by (apply in_map, I). apply NN, I. }
  unfold point_lib. f_equal.
  rewrite (last_job_last js (last_job js (last_job js None)) None NE).
  apply lib_of_ext. intros x I. rewrite (proj2 (smem_spec _ _)) by (apply in_map, I). reflexivity.
Qed.

(** ** Looking skills up *)

Lemma dget_pairs l n s : NoDup (map sk_name l) -> (dget n (pairs l) = Some s <-> In s l /\ sk_name s = n).
Proof.
  unfold pairs. induction l as [|x l IH]; cbn [map]; intros N.
  - cbn. split; [discriminate | intros [[] _]].
  - inversion N as [|? ? A B]; subst. specialize (IH B). cbn [dget].
    destruct (String.eqb_spec n (sk_name x)) as [->|E].
    + split.
      * intros H. injection H as ->. split; [left; reflexivity | reflexivity].
      * intros [[->|I] Q]; [reflexivity|]. exfalso. apply A. rewrite <- Q. apply in_map, I.
    + rewrite IH. split; [intros [I Q]; split; [right; exact I | exact Q]|].
      intros [[->|I] Q]; [congruence | auto].
Qed.
Lemma dget_jobs {V} (g : loaded_job -> V) js j v :
  NoDup (map lj_job js) ->
  (dget j (map (fun x => (lj_job x, g x)) js) = Some v <-> exists x, In x js /\ lj_job x = j /\ g x = v).
Proof.
  induction js as [|y js IH]; cbn [map dget]; intros N.
  - split; [discriminate | intros (x & [] & _)].
  - inversion N as [|? ? A B]; subst. specialize (IH B).
    destruct (String.eqb_spec j (lj_job y)) as [->|E].
    + split.
      * intros H. injection H as <-. exists y. cbn. auto.
      * intros (x & [->|I] & Q & G); [congruence|]. exfalso. apply A. rewrite <- Q. apply in_map, I.
    + rewrite IH. split.
      * intros (x & I & Q). exists x. cbn. auto.
      * intros (x & [->|I] & Q & G); [congruence|]. exists x. auto.
Qed.

Lemma point_get v lv js ps j n s :
  NoDup (map lj_job js) ->
  (forall x, In x js -> NoDup (map sk_name ((snd x ++ generic_list ps) ++ lbs_list (lj_job x)))) ->
  (get_skill (point_lib v lv js ps) n j = Ok s <->
   sk_name s = n /\ exists x, In x js /\ lj_job x = j /\ In s ((snd x ++ generic_list ps) ++ lbs_list j)).
Proof.
  intros N M. unfold get_skill, point_lib, lib_of. cbn [lib_skills].
  set (g := fun x : loaded_job => pairs (snd x ++ generic_list ps ++ lbs_list (lj_job x))).
  change (map _ js) with (map (fun x => (lj_job x, g x)) js).
  destruct (dget j (map (fun x => (lj_job x, g x)) js)) as [d|] eqn:E; cbn [of_option bind].
  - apply dget_jobs in E as (x & I & <- & <-); [|exact N].
    transitivity (dget n (g x) = Some s).
    { destruct (dget n (g x)); cbn; split; intros H; congruence. }
    unfold g. rewrite app_assoc, dget_pairs by (apply M, I).
    split; [intros [H Q]; split; [exact Q|]; exists x; auto|].
    intros [Q (y & J & Y & H)]. split; [|exact Q].
    assert (y = x) as ->; [|exact H].
    clear - N I J Y. induction js as [|z js IH]; [destruct I|]. inversion N as [|? ? A B]; subst.
    destruct I as [->|I], J as [->|J]; auto; exfalso; apply A.
    + rewrite <- Y. apply in_map, J.
    + rewrite Y. apply in_map, I.
  - split; [discriminate|]. intros [_ (x & I & <- & _)]. exfalso.
    assert (dget (lj_job x) (map (fun x => (lj_job x, g x)) js) = Some (g x)) by (apply dget_jobs; eauto).
    congruence.
Qed.

(** ** Generic skills pass the checks for every job *)

Lemma combo_mono sks p : combo_ok [] p = true -> combo_ok sks p = true.
Proof.
  unfold combo_ok. rewrite !forallb_forall. intros H c I. specialize (H c I).
  destruct (combo_actions c) as [|a l]; [reflexivity | discriminate H].
Qed.
Lemma reaches_mono sks p : reaches_ok [] p = true -> reaches_ok sks p = true.
Proof.
  unfold reaches_ok. rewrite !forallb_forall. intros H c I. specialize (H c I).
  destruct (se_allowlist c); [discriminate H | reflexivity].
Qed.
Lemma matters_mono sks p : matters_ok [] p = true -> matters_ok sks p = true.
Proof.
  unfold matters_ok. rewrite !forallb_forall. intros H c I. specialize (H c I).
  cbn [existsb] in H. rewrite orb_false_r in H. rewrite H. reflexivity.
Qed.
Lemma resources_mono rs p : resources_ok [] p = true -> resources_ok rs p = true.
Proof.
  unfold resources_ok. rewrite !forallb_forall. intros H c I. specialize (H c I).
  cbn in H. rewrite orb_false_r in H. rewrite H. reflexivity.
Qed.
Lemma lookups_mono b p : lookups_ok true p = true -> lookups_ok b p = true.
Proof.
  unfold lookups_ok. rewrite !andb_true_iff. intros [[H X] Y]. cbn [negb orb] in X. rewrite X, orb_true_r. auto.
Qed.
Lemma dot_mono b p : dot_ok true p = true -> dot_ok b p = true.
Proof.
  unfold dot_ok. rewrite !forallb_forall. intros H c I. specialize (H c I). destruct (fu_dot c); [|exact H].
  rewrite !andb_true_iff in *. destruct H as [H X]. split; [exact H|]. cbn [negb orb] in X. rewrite X, orb_true_r. reflexivity.
Qed.
Lemma all_parts_mono (p q : skill -> bool) : (forall s, p s = true -> q s = true) ->
  forall n s, all_parts n p s = true -> all_parts n q s = true.
Proof.
  intros H. induction n as [|n IH]; intros s; cbn; [discriminate|]. rewrite !andb_true_iff, !forallb_forall.
  intros [A B]. split; auto.
Qed.
Lemma skill_ok_generic j sks rs s : skill_ok "" [] [] s = true -> skill_ok j sks rs s = true.
Proof.
  unfold skill_ok. rewrite !andb_true_iff. intros [T H]. split; [exact T|]. revert H. apply all_parts_mono.
  clear. intros p. unfold part_ok. cbv zeta. rewrite !andb_true_iff.
  intros [[[[[[[[[A B] C] D] E] F] G] H] I] [J [L M]]].
  change (except_follow_ups "" _) with false in A. change (except_ticks "" _) with false in C.
  change (except_combo "" _) with false in F. change (except_reach "" _) with false in G.
  change (except_matter "" _) with false in H. change (except_reach "" _) with false in H.
  change (except_miss "" _) with false in I. cbn [orb negb] in *.
  rewrite (lookups_mono _ _ A), B, (dot_mono _ _ C), D, (resources_mono _ _ E), (combo_mono _ _ F),
    (reaches_mono _ _ G), (matters_mono _ _ H), I, J, L, M, !orb_true_r. tauto.
Qed.
Lemma fixed_generic_ok :
  forallb (skill_ok "" [] []) ([death_skill; weakness_skill; brink_skill] ++ wait_skills
    ++ tank_lbs ++ healer_lbs ++ melee_lbs ++ caster_lbs ++ ranged_lbs) = true.
Proof. vm_compute. reflexivity. Qed.
Lemma lbs_list_in j s : In s (lbs_list j) -> In s (tank_lbs ++ healer_lbs ++ melee_lbs ++ caster_lbs ++ ranged_lbs).
Proof.
  unfold lbs_list, lbs_of. rewrite !in_app_iff. repeat (destruct (smem j _); [tauto|]). intros [].
Qed.
Lemma generic_ok ps j s : forallb (skill_ok "" [] []) ps = true ->
  In s (generic_list ps ++ lbs_list j) -> skill_ok "" [] [] s = true.
Proof.
  intros P I. pose proof fixed_generic_ok as F. rewrite forallb_forall in P, F. unfold generic_list in I.
  rewrite !in_app_iff in I. destruct I as [[I|[I|I]]|I]; [auto | | |]; apply F; rewrite !in_app_iff; auto.
  apply lbs_list_in in I. rewrite !in_app_iff in I. tauto.
Qed.

(** ** A loaded library *)

Lemma loads_point v lv : loads v lv <-> supported_point (ver_rank v) (lev_rank lv) = true.
Proof.
  assert (H7 : (3 <=? ver_rank v) = str_leb "7.0" v) by exact (ver_rank_ge v V70).
  assert (H1 : (1 <=? ver_rank v) && negb (ver_rank v =? 2) = true <-> v = "6.55" \/ str_leb "7.0" v = true).
  { rewrite <- H7. pose proof (ver_rank_range v) as R.
    assert (E : ver_rank v = 1 <-> v = "6.55").
    { pose proof (cmp_version OEq v V655) as C. cbn [cmp_bool str_cmp vlit_pos vlit_name] in C.
      destruct (ver_rank v ?= 1) eqn:K; [apply Z.compare_eq in K|rewrite Z.compare_lt_iff in K|rewrite Z.compare_gt_iff in K].
      - symmetry in C. apply String.eqb_eq in C. tauto.
      - symmetry in C. apply String.eqb_neq in C. split; [lia | tauto].
      - symmetry in C. apply String.eqb_neq in C. split; [lia | tauto]. }
    rewrite <- E. rewrite andb_true_iff, negb_true_iff, Z.eqb_neq, !Z.leb_le. lia. }
  unfold loads. rewrite <- H1, <- H7. unfold lev_rank.
  destruct (Z.eqb_spec lv 90) as [->|N90]; [cbn [supported_point]; split; [intros [[_ H]|[H _]]; [exact H|discriminate] | auto]|].
  destruct (Z.eqb_spec lv 100) as [->|N100]; [cbn [supported_point]; split; [intros [[H _]|[_ H]]; [discriminate|exact H] | auto]|].
  split; [intros [[H _]|[H _]]; contradiction|].
  destruct (lv <? 92), (lv <? 96), (lv <? 100); cbn; discriminate.
Qed.

Lemma loaded v lv :
  loads v lv ->
  exists js ps, load_jobs (ver_rank v) (lev_rank lv) = Ok js
    /\ mapM (fun nm => pot_skill (ver_rank v) (lev_rank lv) (fst nm) (snd nm)) (pots (ver_rank v)) = Ok ps
    /\ map lj_job js = job_names (ver_rank v) /\ forallb job_ok js = true /\ forallb (skill_ok "" [] []) ps = true
    /\ map sk_name ps = map fst (pots (ver_rank v))
    /\ facts_at (ver_rank v) (lev_rank lv) js = true
    /\ create_skill_library v lv = Ok (point_lib v lv js ps).
Proof.
  intros L. apply loads_point in L. unfold create_skill_library. apply (point_library v lv).
  pose proof points_ok as P. rewrite forallb_forall in P.
  exact (P _ (supported_points _ _ (ver_rank_range v) L)).
Qed.
Lemma not_loaded v lv :
  ~ loads v lv ->
  create_skill_library v lv = Err (if (lv =? 90) && str_ltb "6.55" v then Unmodelled else AssertionError).
Proof.
  intros L. rewrite loads_point in L. apply not_true_is_false in L.
  unfold create_skill_library. rewrite (unsupported_point v lv _ _ (ver_rank_range v) L). f_equal.
  pose proof (ver_rank_gt v V655) as G. cbn [vlit_pos vlit_name] in G. pose proof (ver_rank_range v) as R.
  unfold point_err, lev_rank in *. destruct (lv =? 90); cbn [andb].
  - rewrite <- G. cbn [supported_point] in L.
    destruct (Z.eqb_spec (ver_rank v) 2) as [->|N]; [reflexivity|].
    cbn [negb] in L. rewrite andb_true_r in L. apply Z.leb_gt in L.
    rewrite (proj2 (Z.ltb_ge 1 (ver_rank v))) by lia. reflexivity.
  - destruct (lv =? 100), (lv <? 92), (lv <? 96), (lv <? 100); reflexivity.
Qed.
Lemma loads_iff v lv : loads v lv <-> exists lib, create_skill_library v lv = Ok lib.
Proof.
  split.
  - intros L. destruct (loaded v lv L) as (js & ps & _ & _ & _ & _ & _ & _ & _ & E). eauto.
  - intros [lib E]. destruct (supported_point (ver_rank v) (lev_rank lv)) eqn:S; [apply loads_point, S|].
    rewrite not_loaded in E; [discriminate|]. rewrite loads_point. congruence.
Qed.

Lemma loaded_nodup js ps r l :
  map lj_job js = job_names r -> forallb job_ok js = true -> map sk_name ps = map fst (pots r) ->
  load_jobs r l = Ok js ->
  NoDup (map lj_job js)
  /\ forall x, In x js -> NoDup (map sk_name ((snd x ++ generic_list ps) ++ lbs_list (lj_job x))).
Proof.
  intros N K M _. split; [rewrite N; apply nodup_job_names|]. intros x I. rewrite forallb_forall in K.
  apply (job_names_nodup x ps (vlit_pos V70 <=? r) (vlit_pos V705 <=? r)); [auto|]. rewrite M. unfold pots.
  destruct (vlit_pos V70 <=? r), (vlit_pos V705 <=? r); reflexivity.
Qed.

(** What every shipped skill satisfies. *)
Lemma shipped v lv lib n j s :
  create_skill_library v lv = Ok lib -> get_skill lib n j = Ok s ->
  sk_name s = n /\
  exists sks rs, skill_ok j sks rs s = true
    /\ (forall t, In t sks -> get_skill lib (sk_name t) j = Ok t)
    /\ (exists d, get_all_resource_settings lib j = Ok d /\ forall x, In x rs -> In x (map fst d)).
Proof.
  intros C G. destruct (loaded v lv) as (js & ps & J & P & N & K & Q & M & _ & E).
  { apply loads_iff. eauto. }
  rewrite C in E. injection E as ->.
  destruct (loaded_nodup js ps _ _ N K M J) as [N1 N2].
  apply (point_get v lv js ps) in G as (G & x & I & <- & H); [|exact N1|exact N2].
  split; [exact G|]. exists (snd x), (map fst (cs_resources (fst x))). split; [|split].
  - rewrite <- app_assoc in H. apply in_app_or in H as [H|H].
    + rewrite forallb_forall in K. specialize (K x I). unfold job_ok in K. rewrite !andb_true_iff in K.
      destruct K as [_ K]. rewrite forallb_forall in K. apply K, H.
    + apply skill_ok_generic. exact (generic_ok ps _ s Q H).
  - intros t T. apply point_get; [exact N1|exact N2|]. split; [reflexivity|]. exists x. split; [exact I|].
    split; [reflexivity|]. apply in_or_app. left. apply in_or_app. left. exact T.
  - exists (set_resources (cs_resources (fst x))). split.
    + unfold get_all_resource_settings, point_lib, lib_of. cbn [lib_resources].
      rewrite (proj2 (dget_jobs (fun x => set_resources (cs_resources (fst x))) js (lj_job x) _ N1)
                 (ex_intro _ x (conj I (conj eq_refl eq_refl)))). reflexivity.
    + unfold set_resources.
      assert (A : forall l d k, In k (map fst l) \/ In k (map fst d) ->
        In k (map fst (fold_left (fun (d : dict jr_settings) nr => dset (fst nr) (snd nr) d) l d))).
      { induction l as [|[a b] l IH]; intros d k; cbn [map fold_left]; [intros [[]|H']; exact H'|].
        intros H'. apply IH. cbn [fst snd]. destruct H' as [[<-|H']|H']; [right|left; exact H'|right].
        - apply dmem_spec. unfold dmem. rewrite dget_dset_same. reflexivity.
        - apply dmem_spec. apply dmem_spec in H'. unfold dmem in *.
          destruct (String.eqb_spec k a) as [->|Na]; [rewrite dget_dset_same; reflexivity|].
          rewrite dget_dset_other by congruence. exact H'. }
      intros k Ik. apply A. left. exact Ik.
Qed.
