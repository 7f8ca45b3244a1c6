(** * The example rotations (C65-C68) *)

From Coq Require Import ZArith QArith List String Bool Lia.
From Verif Require Import Base BaseFacts Strings Float Types Lookup Stats Library Events Rotation Csv SpecTimeline SpecGame SpecHit SpecAuto SpecRun
  RunProps Relabel SpecCsv CsvFacts Py PyFacts GameLib GameFacts GameCheck Examples Data_Examples ExampleCheck GamePoints GameLoad
  SpecRun SpecSafe SafeGame SpecExamples.
Import ListNotations.
Open Scope string_scope.
Open Scope Z_scope.

Local Opaque fl dec.

(** ** What is returned *)

Lemma valid_meant v x : rotation_is_valid v x = meant_for v x.
Proof.
  unfold rotation_is_valid, meant_for. rewrite negb_orb. f_equal.
  - rewrite str_leb_ltb. reflexivity.
  - destruct (ex_end x); [rewrite str_leb_ltb|]; reflexivity.
Qed.

Lemma example_stats_from v x st : example_stats v x = Ok st ->
  stats_from x st /\ st_version st = v /\ st_level st = default_level /\ (exists g, stats_of g = Ok st).
Proof.
  unfold example_stats. intros H. apply bind_ok in H as (d & _ & H).
  assert (G : exists g, stats_of g = Ok st).
  { eexists (mkGear _ _ _ _ _ _ _ _ _ _ _ _ _). exact H. }
  unfold make_stats in H. repeat (apply bind_ok in H as (? & _ & H)). injection H as <-.
  split; [|split; [reflexivity|split; [reflexivity|exact G]]].
  unfold stats_from. cbn. unfold q. repeat split. destruct (ex_tenacity x); reflexivity.
Qed.
Lemma init_fields st lib s a i f w t b : rb_init st lib s a i f w t = Ok b ->
  b_stats b = st /\ b_library b = lib /\ b_snap_dots b = s /\ b_autos b = a /\ b_ignore_trailing b = i /\ b_fight_start b = f
  /\ b_windows b = init_downtime_windows w /\ b_default_target b = t /\ b_timed b = [] /\ b_sequence b = [].
Proof. unfold rb_init. intros H. apply bind_ok in H as (p & _ & H). injection H as <-. repeat split. Qed.

Lemma forall2_weaken {A B} (P R : A -> B -> Prop) l l' : (forall a b, P a b -> R a b) -> Forall2 P l l' -> Forall2 R l l'.
Proof. intros H. induction 1; constructor; auto. Qed.
Lemma example_built autos lib x b : get_example_rotation autos lib x = Ok b ->
  example_builder lib autos x b /\ st_level (b_stats b) = default_level /\ (exists g, stats_of g = Ok (b_stats b)).
Proof.
  unfold get_example_rotation. intros H. apply bind_ok in H as (st & S & H). apply bind_ok in H as (b0 & I & H).
  apply example_stats_from in S as (F & V & L & G). apply init_fields in I as (I1 & I2 & I3 & I4 & I5 & I6 & I7 & I8 & I9 & I10).
  apply example_presses in H as (xss & ys & T & Q & SS & P1 & P2). rewrite I9 in T. rewrite I10 in Q.
  pose proof SS as (S1 & S2 & S3 & S4 & S5 & S6 & S7 & S8 & S9).
  split; [|rewrite S1, I1; auto]. split; [congruence|]. split; [congruence|].
  rewrite S1, I1. split; [exact F|]. split; [exact V|]. split; [congruence|]. split; [rewrite S7, I7; reflexivity|].
  split; [congruence|]. split.
  - exists xss. split; [exact T|]. eapply forall2_weaken; [|exact P1]. intros p xs. unfold party_presses, pressed_by_party, default_for.
    rewrite S1, S2, S8. auto.
  - rewrite Q. cbn [app]. eapply forall2_weaken; [|exact P2]. intros n y. unfold seq_for, default_for. rewrite S1, S2, S8. auto.
Qed.

(** *** All of them *)

Lemma dset_new {V} k (x : V) d : ~ In k (dkeys d) -> dset k x d = (d ++ [(k, x)])%list.
Proof.
  induction d as [|[k' y] d IH]; cbn; intros N; [reflexivity|].
  destruct (String.eqb_spec k k') as [->|D]; [exfalso; auto|]. rewrite IH by tauto. reflexivity.
Qed.

Definition built (lib : library) (nx : string * (bool * example)) (nb : string * builder) : Prop :=
  fst nx = fst nb /\ get_example_rotation (fst (snd nx)) lib (snd (snd nx)) = Ok (snd nb).
Lemma built_keys lib l d : Forall2 (built lib) l d -> dkeys d = map fst l.
Proof. induction 1 as [|a b l d [E _] _ IH]; [reflexivity|]. unfold dkeys in *. cbn. rewrite IH, E. reflexivity. Qed.

(** One pass over a list of rotations, each with its choice of autos. *)
Definition add_one (lib : library) (acc : dict builder) (nx : string * (bool * example)) : res (dict builder) :=
  let* b := get_example_rotation (fst (snd nx)) lib (snd (snd nx)) in Ok (dset (fst nx) b acc).
Lemma foldM_app {A B} (f : A -> B -> res A) l l' a : foldM f (l ++ l') a = (let* a' := foldM f l a in foldM f l' a').
Proof. revert a; induction l as [|x l IH]; intros a; [reflexivity|]. cbn [app foldM]. destruct (f a x); [apply IH|reflexivity]. Qed.
Lemma file_fold lib f acc :
  add_file lib acc f = foldM (add_one lib) (offered (lib_version lib) (lib_level lib) [f]) acc.
Proof.
  unfold add_file, offered. cbn [flat_map]. rewrite app_nil_r. generalize (ef_rotations f) as l. intros l.
  revert acc. induction l as [|[k levels] l IH]; intros acc; [reflexivity|]. cbn [foldM flat_map]. rewrite foldM_app.
  unfold example_at at 1. cbn [fst snd]. destruct (zget (lib_level lib) levels) as [x|]; [|apply IH].
  rewrite valid_meant. destruct (meant_for (lib_version lib) x); [|apply IH].
  cbn [foldM]. unfold add_one at 1. cbn [fst snd]. destruct (get_example_rotation (ef_autos f) lib x); [apply IH|reflexivity].
Qed.
Lemma files_fold files lib :
  get_example_rotations files lib = foldM (add_one lib) (offered (lib_version lib) (lib_level lib) files) [].
Proof.
  unfold get_example_rotations. generalize (@nil (string * builder)) as acc.
  induction files as [|f files IH]; intros acc; [reflexivity|]. cbn [foldM]. rewrite file_fold.
  change (offered (lib_version lib) (lib_level lib) (f :: files))
    with (flat_map (fun kv => match zget (lib_level lib) (snd kv) with
                        | Some x => if meant_for (lib_version lib) x then [(fst kv, (ef_autos f, x))] else []
                        | None => [] end) (ef_rotations f) ++ offered (lib_version lib) (lib_level lib) files)%list.
  rewrite foldM_app. unfold offered at 1. cbn [flat_map]. rewrite app_nil_r. apply bind_ext. exact IH.
Qed.
Lemma fold_built lib l : forall acc d, NoDup (dkeys acc ++ map fst l)%list ->
  foldM (add_one lib) l acc = Ok d -> exists d', d = (acc ++ d')%list /\ Forall2 (built lib) l d'.
Proof.
  induction l as [|nx l IH]; intros acc d N H.
  - injection H as <-. exists []. rewrite app_nil_r. auto.
  - cbn [foldM] in H. apply bind_ok in H as (acc' & E & H). unfold add_one in E. apply bind_ok in E as (b & E & K).
    injection K as <-. cbn [map] in N.
    assert (M : ~ In (fst nx) (dkeys acc)).
    { intros I. apply NoDup_remove_2 in N. apply N, in_or_app. auto. }
    rewrite (dset_new _ _ _ M) in H. apply IH in H as (d' & -> & F).
    + exists ((fst nx, b) :: d'). split; [rewrite <- app_assoc; reflexivity|]. constructor; [|exact F]. split; [reflexivity|exact E].
    + unfold dkeys. rewrite map_app. cbn [map fst]. rewrite <- app_assoc. exact N.
Qed.

(** The names of all tables are distinct. *)
Definition table_names (files : list example_file) : list string := flat_map (fun f => dkeys (ef_rotations f)) files.
Inductive sublist {A} : list A -> list A -> Prop :=
| sub_nil : sublist [] []
| sub_skip x l l' : sublist l l' -> sublist l (x :: l')
| sub_keep x l l' : sublist l l' -> sublist (x :: l) (x :: l').
Lemma sublist_in {A} (l l' : list A) : sublist l l' -> forall x, In x l -> In x l'.
Proof. induction 1; cbn; intros y I; [exact I | auto | destruct I; auto]. Qed.
Lemma sublist_nodup {A} (l l' : list A) : sublist l l' -> NoDup l' -> NoDup l.
Proof.
  induction 1 as [|x l l' S IH|x l l' S IH]; intros N; [constructor | inversion N; auto|].
  inversion N; subst. constructor; [|auto]. intros I. apply (sublist_in _ _ S) in I. contradiction.
Qed.
Lemma sublist_app {A} (a a' b b' : list A) : sublist a a' -> sublist b b' -> sublist (a ++ b) (a' ++ b').
Proof. induction 1; cbn; intros S; [exact S | apply sub_skip; auto | apply sub_keep; auto]. Qed.
Lemma offered_names v lv files : sublist (map fst (offered v lv files)) (table_names files).
Proof.
  unfold offered, table_names. induction files as [|f files IH]; [constructor|]. cbn [flat_map]. rewrite map_app. apply sublist_app; [|exact IH].
  unfold dkeys. induction (ef_rotations f) as [|[k levels] l IL]; [constructor|].
  cbn [flat_map map fst snd]. destruct (zget lv levels) as [x|]; [destruct (meant_for v x)|];
    [apply sub_keep | apply sub_skip | apply sub_skip]; exact IL.
Qed.
Lemma example_names : NoDup (table_names example_files).
Proof. apply str_nodupb_sound. vm_compute. reflexivity. Qed.

Lemma returned lib d : get_example_rotations example_files lib = Ok d ->
  Forall2 (built lib) (offered (lib_version lib) (lib_level lib) example_files) d.
Proof.
  rewrite files_fold. intros H. apply fold_built in H as (d' & -> & F); [exact F|].
  cbn [dkeys map app]. exact (sublist_nodup _ _ (offered_names _ _ _) example_names).
Qed.
Theorem returned_spec lib d : get_example_rotations example_files lib = Ok d ->
  Forall2 (fun nx nb => fst nx = fst nb /\ example_builder lib (fst (snd nx)) (snd (snd nx)) (snd nb))
    (offered (lib_version lib) (lib_level lib) example_files) d.
Proof. intros H. eapply forall2_weaken; [|exact (returned _ _ H)]. intros nx nb [E G]. split; [exact E|]. apply example_built, G. Qed.
Lemma forall2_in_r {A B} (P : A -> B -> Prop) l l' y : Forall2 P l l' -> In y l' -> exists x, In x l /\ P x y.
Proof. induction 1 as [|a b l l' H _ IH]; intros I; [destruct I|]. destruct I as [<-|I]; [exists a; cbn; auto|]. destruct (IH I) as (x & J & K). exists x. cbn; auto. Qed.
Lemma forall2_in_l {A B} (P : A -> B -> Prop) l l' x : Forall2 P l l' -> In x l -> exists y, In y l' /\ P x y.
Proof. induction 1 as [|a b l l' H _ IH]; intros I; [destruct I|]. destruct I as [<-|I]; [exists b; cbn; auto|]. destruct (IH I) as (y & J & K). exists y. cbn; auto. Qed.
Theorem returned_level lib d n b : get_example_rotations example_files lib = Ok d -> In (n, b) d -> st_level (b_stats b) = 90.
Proof.
  intros H I. apply returned in H. destruct (forall2_in_r _ _ _ _ H I) as (nx & _ & _ & G). apply (example_built _ _ _ _ G).
Qed.

(** ** Another version of the same position *)

Definition vlit_of (s : string) : option vlit := find (fun x => String.eqb (vlit_name x) s) vlits.
(** The versions in the tables are among the literals. *)
Definition known_versions (x : example) : bool :=
  match vlit_of (ex_start x) with Some _ => true | None => false end
  && match ex_end x with Some e => match vlit_of e with Some _ => true | None => false end | None => true end.
Lemma tables_known : forallb (fun f => forallb (fun kv => forallb (fun lx => known_versions (snd lx)) (snd kv)) (ef_rotations f))
  example_files = true.
Proof. vm_compute. reflexivity. Qed.
Lemma vlit_of_name s x : vlit_of s = Some x -> s = vlit_name x.
Proof. unfold vlit_of. intros H. apply find_some in H as [_ H]. apply String.eqb_eq in H. auto. Qed.
Lemma meant_rank v w x : ver_rank v = ver_rank w -> known_versions x = true -> meant_for v x = meant_for w x.
Proof.
  intros R. unfold known_versions, meant_for. destruct (vlit_of (ex_start x)) as [s|] eqn:S; [|discriminate].
  apply vlit_of_name in S. rewrite S, <- !ver_rank_ge, R. cbn [andb]. destruct (ex_end x) as [e|]; [|reflexivity].
  destruct (vlit_of e) as [y|] eqn:E; [|discriminate]. intros _. apply vlit_of_name in E. rewrite E.
  rewrite !(str_leb_ltb _ (vlit_name y)), <- !ver_rank_gt, R. reflexivity.
Qed.
Lemma zget_in {V} k (x : V) d : zget k d = Some x -> In (k, x) d.
Proof.
  induction d as [|[k' y] d IH]; cbn; [discriminate|]. destruct (Z.eqb_spec k k') as [->|]; [intros [= ->]; auto|auto].
Qed.
Lemma flat_map_ext_in {A B} (f g : A -> list B) l : (forall x, In x l -> f x = g x) -> flat_map f l = flat_map g l.
Proof. induction l as [|x l IH]; intros H; [reflexivity|]. cbn. rewrite H by (left; reflexivity). f_equal. apply IH. intros y I. apply H. right. exact I. Qed.
Lemma offered_rank v w lv : ver_rank v = ver_rank w -> offered v lv example_files = offered w lv example_files.
Proof.
  intros R. pose proof tables_known as K. rewrite forallb_forall in K. unfold offered. apply flat_map_ext_in. intros f F.
  specialize (K f F). rewrite forallb_forall in K. apply flat_map_ext_in. intros kv I. specialize (K kv I). rewrite forallb_forall in K.
  destruct (zget lv (snd kv)) as [x|] eqn:Z; [|reflexivity]. apply zget_in in Z. specialize (K _ Z). cbn in K.
  rewrite (meant_rank v w x R K). reflexivity.
Qed.
Lemma stats_rank v w x :
  String.eqb v "test" = false -> String.eqb w "test" = false -> ver_rank v = ver_rank w ->
  example_stats v x = rmap (relabel_stats v) (example_stats w x).
Proof.
  intros V W R. unfold example_stats. destruct (dget (ex_job x) weapon_delays) as [d|]; [|reflexivity]. cbn [of_option bind].
  unfold make_stats. unfold get_consts, job_mod_of, trait_reduction_of, trait_damage_mult_of, is_test. rewrite V, W.
  unfold reduction_data. change (default_level =? 90) with true. cbn [bind].
  assert (E : forall D : dict Q, get_greatest_dict_val [("6.55", D)] v = get_greatest_dict_val [("6.55", D)] w).
  { intros D. pose proof (ver_rank_ge v V655) as A. pose proof (ver_rank_ge w V655) as B. rewrite R in A. rewrite A in B. cbn [vlit_name] in B.
    unfold get_greatest_dict_val, get_greatest_val_less_than_query. cbn [dkeys map fst filter]. rewrite B. reflexivity. }
  rewrite E. change (default_level =? 100) with false. cbv iota. cbn [bind].
  destruct (of_option KeyError (dget (ex_job x) job_mods)) as [jm|]; [|reflexivity]. cbn [bind rmap]. unfold relabel_stats.
  cbn [st_wd st_weapon_delay st_main_stat st_det st_dh st_crit st_speed st_job st_tenacity st_num_roles st_healer_strength st_level
    ps_crit_rate ps_crit_bonus ps_det_bonus ps_dh_rate ps_job_mod ps_trait_damage_mult ps_trait_haste ps_trait_auto]. reflexivity.
Qed.
Lemma rotation_rank autos v lib x :
  String.eqb v "test" = false -> String.eqb (lib_version lib) "test" = false -> ver_rank v = ver_rank (lib_version lib) ->
  get_example_rotation autos (relabel_lib v lib) x = rmap (relabel v) (get_example_rotation autos lib x).
Proof.
  intros V W R. unfold get_example_rotation. cbn [relabel_lib lib_version]. rewrite (stats_rank v _ x V W R).
  destruct (example_stats (lib_version lib) x) as [st|]; [|reflexivity]. cbn [rmap bind].
  unfold rb_init. change (get_status_effect_priority (relabel_lib v lib) (st_job (relabel_stats v st)))
    with (get_status_effect_priority lib (st_job st)).
  destruct (get_status_effect_priority lib (st_job st)) as [p|]; [|reflexivity]. cbn [bind].
  match goal with |- _ = rmap _ (example_rotation ?b _ _) => exact (example_relabel v b (ex_party x) (ex_skills x)) end.
Qed.
Definition relabel_all (v : string) (d : dict builder) : dict builder := map (fun nb => (fst nb, relabel v (snd nb))) d.
Lemma dset_relabel v k b d : dset k (relabel v b) (relabel_all v d) = relabel_all v (dset k b d).
Proof.
  induction d as [|[k' y] d IH]; cbn; [reflexivity|]. destruct (String.eqb k k'); [reflexivity|]. cbn. f_equal. exact IH.
Qed.
Lemma rotations_rank v lib :
  String.eqb v "test" = false -> String.eqb (lib_version lib) "test" = false -> ver_rank v = ver_rank (lib_version lib) ->
  get_example_rotations example_files (relabel_lib v lib) = rmap (relabel_all v) (get_example_rotations example_files lib).
Proof.
  intros V W R. rewrite !files_fold. cbn [relabel_lib lib_version lib_level]. rewrite (offered_rank v _ _ R).
  change (@nil (string * builder)) with (relabel_all v []) at 1. apply foldM_map. intros acc nx. unfold add_one.
  rewrite (rotation_rank _ v lib _ V W R). destruct (get_example_rotation _ lib _) as [b|]; [|reflexivity]. cbn [rmap bind].
  rewrite dset_relabel. reflexivity.
Qed.

(** ** They run *)

Lemma nodup_map_inj {A B} (f : A -> B) l : NoDup (map f l) -> forall x y, In x l -> In y l -> f x = f y -> x = y.
Proof.
  induction l as [|z l IH]; cbn; intros N x y I J E; [destruct I|]. inversion N as [|? ? K M]; subst.
  destruct I as [->|I], J as [->|J]; auto; exfalso; apply K; [rewrite E|rewrite <- E]; apply in_map; assumption.
Qed.
Lemma reachable_party party : forall b b', reachable b -> foldM add_party_skill party b = Ok b' -> reachable b'.
Proof.
  induction party as [|p l IH]; intros b b' R H; cbn [foldM] in H; [injection H as <-; exact R|].
  apply bind_ok in H as (b1 & E & H). apply (IH b1); [|exact H]. unfold add_party_skill in E. apply bind_ok in E as (b2 & E2 & E).
  eapply reach_add; [|exact E]. destruct (ps_modifier p); [eapply reach_add; eassumption|]. injection E2 as <-. exact R.
Qed.
Lemma reachable_skills l : forall b b', reachable b -> foldM (fun b s => add_next b s None None 1 None) l b = Ok b' -> reachable b'.
Proof.
  induction l as [|s l IH]; intros b b' R H; cbn [foldM] in H; [injection H as <-; exact R|].
  apply bind_ok in H as (b1 & E & H). apply (IH b1); [|exact H]. eapply reach_add_next; eassumption.
Qed.
Lemma example_reachable autos lib x b : get_example_rotation autos lib x = Ok b -> reachable b.
Proof.
  unfold get_example_rotation. intros H. apply bind_ok in H as (st & _ & H). apply bind_ok in H as (b0 & I & H).
  unfold example_rotation in H. apply bind_ok in H as (b1 & E & H). eapply reachable_skills; [|exact H].
  eapply reachable_party; [|exact E]. eapply reach_init, I.
Qed.
Lemma version_position r : In r [1; 3; 4; 5; 6; 7; 8; 9; 10] ->
  ver_rank (version_of r) = r /\ String.eqb (version_of r) "test" = false.
Proof. intros I. repeat (destruct I as [<-|I]; [split; reflexivity|]). destruct I. Qed.

Lemma forall2_in_seq (b : builder) l xs x : Forall2 (seq_for b) l xs -> In x xs ->
  (exists n, get_skill (b_library b) n (st_job (b_stats b)) = Ok (sq_skill x)).
Proof. intros F I. destruct (forall2_in_r _ _ _ _ F I) as (n & _ & J & G & _). exists n. rewrite <- J. exact G. Qed.

Lemma safe_sound v lv autos lib x b :
  create_skill_library v lv = Ok lib -> lib_version lib = v ->
  get_example_rotation autos lib x = Ok b -> safe_builder b = true ->
  exists b', get_skill_timing b = Ok b'.
Proof.
  intros C LV G K. pose proof (example_reachable _ _ _ _ G) as R.
  apply example_built in G as ((L & A & F & V & FS & Wi & IT & _ & Sq) & _ & Ge).
  unfold safe_builder in K. rewrite !andb_true_iff in K. destruct K as [[[[[K1 K2] K3] K4] K5] K6].
  rewrite forallb_forall in K2, K3.
  assert (KS : forall y, In y (b_sequence b) -> no_queen (sq_skill y) = true /\ NoDup (sm_cond (sq_modifier y))).
  { intros y I. specialize (K2 y I). apply andb_true_iff in K2 as [H1 H2]. split; [exact H1|apply str_nodupb_sound, H2]. }
  assert (KT : forall y, In y (b_timed b) ->
            no_queen (tm_skill y) = true /\ only_clears (tm_skill y) = true /\ NoDup (sm_cond (tm_modifier y))).
  { intros y I. specialize (K3 y I). apply andb_true_iff in K3 as [H1 H2]. apply andb_true_iff in H1 as [H0 H1].
    split; [exact H0|]. split; [exact H1|apply str_nodupb_sound, H2]. }
  apply (shipped_timing_safe v lv b R).
  - split; [rewrite L; exact C|]. split; [exact Ge|]. split; [apply smem_spec, K1|]. split; [|split; [|split; [|split]]].
    + intros s I. unfold skills_of in I. apply in_app_or in I as [I|I]; apply in_map_iff in I as (y & <- & I).
      * left. exact (forall2_in_seq _ _ _ _ Sq I).
      * right. intros p c P J. destruct (KT y I) as (_ & H & _). apply (all_parts_sound _ p _ P) in H. rewrite forallb_forall in H. apply H, J.
    + intros s p I P. unfold skills_of in I. apply in_app_or in I as [I|I]; apply in_map_iff in I as (y & <- & I).
      * destruct (KS y I) as (H & _). apply (all_parts_sound _ p _ P) in H. apply negb_true_iff, String.eqb_neq in H. exact H.
      * destruct (KT y I) as (H & _). apply (all_parts_sound _ p _ P) in H. apply negb_true_iff, String.eqb_neq in H. exact H.
    + intros y I. apply (KS y I).
    + intros y I. apply (KT y I).
    + intros y z I J N. f_equal. exact (nodup_map_inj _ _ (str_nodupb_sound _ K4) y z I J N).
  - intros B. rewrite B in K5. apply andb_true_iff in K5 as [H V6]. apply andb_true_iff in H as [H D]. split; [|split; [|split]].
    + apply existsb_exists in H as (s & I & H). exists s. split; [exact I|]. intros m _. unfold hits in H.
      unfold get_damage_spec. destruct (sk_damage s) as [|d|d]; try discriminate H. exists d. reflexivity.
    + apply Qle_bool_iff, D.
    + intros t w I. unfold windows_of in I. rewrite Wi in I. destruct (in_dec string_dec t (b_targets b)); destruct I.
    + intros J [N1 N2]. rewrite J, L, LV in V6. apply negb_true_iff in V6. cbn [String.eqb] in V6.
      change (String.eqb "VPR" "VPR") with true in V6. cbn [andb] in V6. apply Z.eqb_neq in V6.
      pose proof (ver_rank_gt v V701) as G1. pose proof (ver_rank_ge v V705) as G2. cbn [vlit_name vlit_pos] in G1, G2.
      rewrite N1 in G1. rewrite str_leb_ltb, N2 in G2. cbn [negb] in G2. apply Z.ltb_lt in G1. apply Z.leb_gt in G2.
      clear - G1 G2 V6. lia.
Qed.

Lemma relabel_point v w lv js ps : relabel_lib v (point_lib w lv js ps) = point_lib v lv js ps.
Proof. unfold relabel_lib, point_lib, lib_of. cbn [lib_skills lib_priority lib_resources lib_breakers lib_current lib_level]. reflexivity. Qed.
Lemma point_lib_version w lv js ps : lib_version (point_lib w lv js ps) = w /\ lib_level (point_lib w lv js ps) = lv.
Proof. unfold point_lib, lib_of. cbn [lib_version lib_level]. split; reflexivity. Qed.
Lemma point_lib_jobs w lv js ps : get_jobs (point_lib w lv js ps) = map lj_job js.
Proof. unfold point_lib. apply get_jobs_lib_of. Qed.
Lemma supported_position r l : In (r, l) points -> In r [1; 3; 4; 5; 6; 7; 8; 9; 10].
Proof. unfold points. rewrite in_app_iff, !in_map_iff. intros [(x & [= <- _] & I)|(x & [= <- _] & I)]; [exact I|]. cbn in *. tauto. Qed.
Lemma level_position lv r : supported_point r (lev_rank lv) = true -> level_of (lev_rank lv) = lv.
Proof.
  unfold lev_rank. destruct (Z.eqb_spec lv 90) as [->|]; [reflexivity|]. destruct (Z.eqb_spec lv 100) as [->|]; [reflexivity|].
  destruct (lv <? 92), (lv <? 96), (lv <? 100); discriminate.
Qed.

Local Opaque create_skill_library point_lib load_jobs pot_skill get_skill_timing.
Lemma library_of v lv lib : create_skill_library v lv = Ok lib -> lib_version lib = v /\ lib_level lib = lv /\ get_jobs lib = job_names (ver_rank v).
Proof.
  intros C. assert (L : loads v lv) by (apply loads_iff; eauto). destruct (loaded v lv L) as (js & ps & J & P & N & _ & _ & _ & _ & E).
  rewrite E in C. injection C as <-. destruct (point_lib_version v lv js ps) as [-> ->]. repeat split.
  rewrite <- N. apply point_lib_jobs.
Qed.
Theorem examples_run v lv lib : create_skill_library v lv = Ok lib -> v <> "test" ->
  exists d, get_example_rotations example_files lib = Ok d
    /\ forall n b, In (n, b) d -> exists b', get_skill_timing b = Ok b'.
Proof.
  intros C T. assert (L : loads v lv) by (apply loads_iff; eauto). apply String.eqb_neq in T.
  pose proof L as S. apply loads_point in S. pose proof (supported_points _ _ (ver_rank_range v) S) as I.
  destruct (version_position _ (supported_position _ _ I)) as [WR WT].
  set (w := version_of (ver_rank v)) in *.
  assert (LW : loads w lv) by (apply loads_point; rewrite WR; exact S).
  destruct (loaded w lv LW) as (js & ps & J & P & _ & _ & _ & _ & _ & E). rewrite WR in J, P.
  destruct (loaded v lv L) as (js' & ps' & J' & P' & _ & _ & _ & _ & _ & E').
  rewrite J in J'. injection J' as <-. rewrite P in P'. injection P' as <-. rewrite E' in C. injection C as <-.
  assert (X : examples_at (ver_rank v) (lev_rank lv) js ps = true).
  { apply (point_examples _ _ js ps); [|exact J|exact P]. pose proof points_ok as K. rewrite forallb_forall in K. exact (K _ I). }
  unfold examples_at in X. fold w in X. rewrite (level_position lv _ S) in X.
  destruct (point_lib_version w lv js ps) as [VW _].
  rewrite <- (relabel_point v w lv js ps). rewrite rotations_rank; [|exact T|rewrite VW; exact WT|rewrite VW; symmetry; exact WR].
  destruct (get_example_rotations example_files (point_lib w lv js ps)) as [d|] eqn:D; [|discriminate X].
  exists (relabel_all v d). split; [reflexivity|]. intros n b B. unfold relabel_all in B. apply in_map_iff in B as ([n0 b0] & Q & B).
  cbn [fst snd] in Q. injection Q as <- <-.
  assert (R : exists b', get_skill_timing b0 = Ok b').
  { rewrite forallb_forall in X. specialize (X _ B). cbn [snd] in X. destruct (safe_builder b0) eqn:SB.
    - apply returned in D. destruct (forall2_in_r _ _ _ _ D B) as (nx & _ & _ & G). cbn [snd] in G.
      exact (safe_sound w lv _ _ _ _ E VW G SB).
    - unfold runs in X. destruct (get_skill_timing b0) as [b1|]; [exists b1; reflexivity|discriminate X]. }
  destruct R as (b1 & R). exists (relabel v b1).
  assert (V0 : st_version (b_stats b0) = w).
  { apply returned in D. destruct (forall2_in_r _ _ _ _ D B) as (nx & _ & _ & G). cbn [snd] in G. apply example_built in G.
    destruct G as ((_ & _ & _ & G & _) & _). rewrite G. exact VW. }
  rewrite (run_relabel v b0 T); [rewrite R; reflexivity|rewrite V0; exact WT].
Qed.

(** With version "test" the job modifiers are those of the test jobs. *)
Lemma first_raises v lv x l lib : lib_version lib = v -> lib_level lib = lv -> offered v lv example_files = x :: l ->
  get_example_rotation (fst (snd x)) lib (snd (snd x)) = Err KeyError -> get_example_rotations example_files lib = Err KeyError.
Proof. intros V L O E. rewrite files_fold, V, L, O. cbn [foldM]. unfold add_one at 1. rewrite E. reflexivity. Qed.
Definition raises_first (lv : Z) : bool :=
  match offered "test" lv example_files with
  | x :: _ => match example_stats "test" (snd (snd x)) with Err KeyError => true | _ => false end
  | [] => false
  end.
Lemma raises_first_sound lv : raises_first lv = true ->
  exists x l, offered "test" lv example_files = x :: l /\ example_stats "test" (snd (snd x)) = Err KeyError.
Proof.
  unfold raises_first. destruct (offered "test" lv example_files) as [|x l]; intros H; [discriminate H|]. exists x, l. split; [reflexivity|].
  destruct (example_stats "test" (snd (snd x))) as [|[]]; first [discriminate H | reflexivity].
Qed.
Lemma raises_first_ok : raises_first 90 = true /\ raises_first 100 = true.
Proof. split; vm_compute; reflexivity. Qed.
Theorem test_raises lv lib : create_skill_library "test" lv = Ok lib -> get_example_rotations example_files lib = Err KeyError.
Proof.
  intros C. destruct (library_of _ _ _ C) as (V & Lv & _). assert (L : loads "test" lv) by (apply loads_iff; eauto).
  assert (X : exists x l, offered "test" lv example_files = x :: l /\ example_stats "test" (snd (snd x)) = Err KeyError).
  { apply raises_first_sound. destruct L as [[-> _]|[-> _]]; apply raises_first_ok. }
  destruct X as (x & l & O & St). apply (first_raises _ _ _ _ _ V Lv O). unfold get_example_rotation. rewrite V, St. reflexivity.
Qed.

(** ** Their level *)

Lemma get_returned v lv lib d nx : create_skill_library v lv = Ok lib -> get_example_rotations example_files lib = Ok d ->
  In nx (offered v lv example_files) -> exists b, In (fst nx, b) d /\ get_example_rotation (fst (snd nx)) lib (snd (snd nx)) = Ok b.
Proof.
  intros C D I. destruct (library_of _ _ _ C) as (V & L & _). apply returned in D. rewrite V, L in D.
  destruct (forall2_in_l _ _ _ _ D I) as ([n b] & J & E & G). cbn [fst snd] in E, G. subst n. exists b. split; assumption.
Qed.
Theorem ninja_slow v lib d b : create_skill_library v 100 = Ok lib -> get_example_rotations example_files lib = Ok d ->
  In ("NIN", b) d ->
  st_job (b_stats b) = "NIN" /\ (ps_trait_haste (b_stats b) == 0)%Q
  /\ trait_reduction_of v "NIN" 100 = Ok (dec 15 100).
Proof.
  intros C D I. destruct (library_of _ _ _ C) as (V & L & _). assert (Lo : loads v 100) by (apply loads_iff; eauto).
  destruct Lo as [[K _]|[_ Lo]]; [discriminate K|].
  assert (T : is_test v = false).
  { destruct (is_test v) eqn:T; [|reflexivity]. unfold is_test in T. apply String.eqb_eq in T. subst v. rewrite T in *.
    apply test_raises in C. rewrite C in D. discriminate D. }
  pose proof D as R. apply returned in R. destruct (forall2_in_r _ _ _ _ R I) as (nx & O & E & G). cbn [fst snd] in E, G.
  assert (J : ex_job (snd (snd nx)) = "NIN").
  { rewrite V, L in O. unfold offered in O. apply in_flat_map in O as (f & F & O). apply in_flat_map in O as (kv & Kv & O).
    destruct (zget 100 (snd kv)) as [x|] eqn:Z; [|destruct O]. destruct (meant_for v x); [|destruct O].
    destruct O as [<-|[]]. cbn [fst snd] in *. apply zget_in in Z.
    assert (A : forallb (fun f => forallb (fun kv => if String.eqb (fst kv) "NIN" then
                 forallb (fun lx => String.eqb (ex_job (snd lx)) "NIN") (snd kv) else true) (ef_rotations f)) example_files = true)
      by (vm_compute; reflexivity).
    rewrite forallb_forall in A. specialize (A f F). rewrite forallb_forall in A. specialize (A kv Kv).
    destruct kv as [n lx]. cbn [fst snd] in *. subst n. change (String.eqb "NIN" "NIN") with true in A. cbv iota in A.
    rewrite forallb_forall in A. apply String.eqb_eq. exact (A _ Z). }
  unfold get_example_rotation in G. apply bind_ok in G as (st & St & G). apply bind_ok in G as (b0 & I0 & G).
  apply init_fields in I0 as (S0 & _). apply example_presses in G as (_ & _ & _ & _ & SS & _). destruct SS as (S1 & _).
  rewrite S1, S0. clear S1 S0 I.
  unfold example_stats in St. rewrite J, V in St. apply bind_ok in St as (dl & _ & St). unfold make_stats in St.
  apply bind_ok in St as (c & _ & St). apply bind_ok in St as (jm & _ & St). apply bind_ok in St as (red & Red & St).
  apply bind_ok in St as (wd & _ & St). injection St as <-. cbn [st_job ps_trait_haste]. split; [reflexivity|].
  unfold trait_reduction_of in *. rewrite T in *. unfold reduction_data in *. change (default_level =? 90) with true in Red.
  cbn [bind] in Red. injection Red as <-. split.
  - unfold get_greatest_dict_val, get_greatest_val_less_than_query. cbn [dkeys map fst filter].
    destruct (str_leb "6.55" v); reflexivity.
  - change (100 =? 90) with false. change (100 =? 100) with true. cbn [bind]. f_equal.
    assert (Lo' : str_leb "6.55" v = true).
    { pose proof (ver_rank_ge v V655) as A. pose proof (ver_rank_ge v V70) as B. cbn [vlit_pos vlit_name] in A, B. rewrite Lo in B.
      rewrite <- A. apply Z.leb_le in B. apply Z.leb_le. lia. }
    unfold get_greatest_dict_val, get_greatest_val_less_than_query. cbn [dkeys map fst filter]. rewrite Lo, Lo'. reflexivity.
Qed.

(** ** Which jobs have one *)

Definition offered_jobs (v : string) (lv : Z) : list string := map (fun nx => ex_job (snd (snd nx))) (offered v lv example_files).
Definition all_covered (r : Z) : bool := forallb (fun j => smem j (offered_jobs (version_of r) 100)) (job_names r).
Lemma late_covered : forallb all_covered [7; 8; 9; 10] = true.
Proof. vm_compute. reflexivity. Qed.
Lemma early_empty : forallb (fun r => match offered (version_of r) 100 example_files with [] => true | _ => false end) [1; 3; 4; 5; 6] = true.
Proof. vm_compute. reflexivity. Qed.
Lemma supported_rank v lv : loads v lv -> In (ver_rank v) [1; 3; 4; 5; 6; 7; 8; 9; 10].
Proof. intros L. apply loads_point in L. eapply supported_position, supported_points; [apply ver_rank_range|exact L]. Qed.
Lemma offered_version v lv : loads v lv -> offered v lv example_files = offered (version_of (ver_rank v)) lv example_files.
Proof. intros L. apply offered_rank. symmetry. apply version_position, (supported_rank v lv L). Qed.
Lemma example_job autos lib x b : get_example_rotation autos lib x = Ok b -> st_job (b_stats b) = ex_job x.
Proof. intros G. apply example_built in G as ((_ & _ & F & _) & _). apply F. Qed.
Theorem late_jobs v lib d j : create_skill_library v 100 = Ok lib -> str_leb "7.05" v = true ->
  get_example_rotations example_files lib = Ok d -> In j (get_jobs lib) -> exists n b, In (n, b) d /\ st_job (b_stats b) = j.
Proof.
  intros C N D I. assert (L : loads v 100) by (apply loads_iff; eauto). pose proof (supported_rank v 100 L) as R.
  destruct (library_of _ _ _ C) as (_ & _ & J). rewrite J in I.
  pose proof (ver_rank_ge v V705) as G. cbn [vlit_pos vlit_name] in G. rewrite N in G. apply Z.leb_le in G.
  assert (R' : In (ver_rank v) [7; 8; 9; 10]) by (clear - R G; cbn in *; lia).
  pose proof late_covered as K. rewrite forallb_forall in K. specialize (K _ R'). unfold all_covered in K.
  rewrite forallb_forall in K. specialize (K j I). apply smem_spec in K. unfold offered_jobs in K. rewrite <- (offered_version v 100 L) in K.
  apply in_map_iff in K as (nx & <- & K). destruct (get_returned _ _ _ _ _ C D K) as (b & B & E).
  exists (fst nx), b. split; [exact B|]. exact (example_job _ _ _ _ E).
Qed.
Theorem early_none v lib d : create_skill_library v 100 = Ok lib -> str_ltb v "7.05" = true ->
  get_example_rotations example_files lib = Ok d -> d = [].
Proof.
  intros C N D. assert (L : loads v 100) by (apply loads_iff; eauto). pose proof (supported_rank v 100 L) as R.
  destruct (library_of _ _ _ C) as (V & Lv & _). apply returned in D. rewrite V, Lv, (offered_version v 100 L) in D.
  pose proof (ver_rank_ge v V705) as G. cbn [vlit_pos vlit_name] in G. rewrite str_leb_ltb, N in G. apply Z.leb_gt in G.
  assert (R' : In (ver_rank v) [1; 3; 4; 5; 6]) by (clear - R G; cbn in *; lia).
  pose proof early_empty as K. rewrite forallb_forall in K. specialize (K _ R').
  destruct (offered (version_of (ver_rank v)) 100 example_files); [|discriminate K]. inversion D. reflexivity.
Qed.
Theorem no_astrologian : exists lib, create_skill_library "6.55" 90 = Ok lib /\ In "AST" (get_jobs lib)
  /\ forall d n b, get_example_rotations example_files lib = Ok d -> In (n, b) d -> st_job (b_stats b) <> "AST".
Proof.
  assert (L : loads "6.55" 90) by (left; split; [reflexivity|left; reflexivity]).
  pose proof L as C. apply loads_iff in C as (lib & C). exists lib. split; [exact C|].
  destruct (library_of _ _ _ C) as (V & Lv & J). split; [rewrite J; cbn; tauto|].
  intros d n b D I. apply returned in D. rewrite V, Lv in D. destruct (forall2_in_r _ _ _ _ D I) as (nx & O & _ & G). cbn [snd] in G.
  rewrite (example_job _ _ _ _ G). intros E.
  assert (K : smem "AST" (offered_jobs "6.55" 90) = false) by (vm_compute; reflexivity).
  assert (K' : smem "AST" (offered_jobs "6.55" 90) = true); [|rewrite K in K'; discriminate K'].
  apply smem_spec. rewrite <- E. unfold offered_jobs. apply (in_map (fun nx => ex_job (snd (snd nx)))), O.
Qed.

(** An example. *)
Lemma loads_705 : loads "7.05" 100.
Proof. right. split; reflexivity. Qed.
Lemma case_705 : exists lib d, create_skill_library "7.05" 100 = Ok lib /\ get_example_rotations example_files lib = Ok d
  /\ forall n, In n (map fst (offered "7.05" 100 example_files)) -> exists b, In (n, b) d.
Proof.
  pose proof loads_705 as C. apply loads_iff in C as (lib & C). destruct (examples_run _ _ _ C) as (d & D & _); [discriminate|].
  exists lib, d. split; [exact C|]. split; [exact D|]. intros n I. apply in_map_iff in I as (nx & <- & I).
  destruct (get_returned _ _ _ _ _ C D I) as (b & B & _). eauto.
Qed.
Theorem wrong_level : exists lib d b, create_skill_library "7.05" 100 = Ok lib /\ get_example_rotations example_files lib = Ok d
  /\ In ("NIN", b) d /\ st_level (b_stats b) <> lib_level lib.
Proof.
  destruct case_705 as (lib & d & C & D & A). destruct (A "NIN") as (b & I).
  { apply smem_spec. vm_compute. reflexivity. }
  exists lib, d, b. repeat (split; [assumption|]). rewrite (returned_level _ _ _ _ D I). destruct (library_of _ _ _ C) as (_ & -> & _).
  discriminate.
Qed.
Lemma test_loads : exists lib, create_skill_library "test" 90 = Ok lib.
Proof. apply loads_iff. left. split; [reflexivity|right; reflexivity]. Qed.
Lemma early_loads : exists lib, create_skill_library "7.01" 100 = Ok lib.
Proof. apply loads_iff. right. split; reflexivity. Qed.
