(** * Shipped skills against the data tables (C69) *)

From Coq Require Import ZArith QArith List String Bool Lia.
From Verif Require Import Base BaseFacts Strings Float Types Lookup SpecCond CondFacts Library LibraryFacts
  SpecGame Py PyFacts Data_DRG GameLib GameFacts GameCheck GameCounter SafeCheck ExampleCheck SpecData DataCheck GamePoints GameLoad GameProps.
Import ListNotations.
Open Scope string_scope.
Open Scope Z_scope.

(** ** The table *)

Lemma vlit_names k k' : str_leb (vlit_name k') (vlit_name k) = true -> vlit_pos k' <= vlit_pos k.
Proof. destruct k, k'; vm_compute; intros H K; discriminate. Qed.
Lemma tabled_active t v lv n p e : tabled t v lv n p e -> In (n, (p, e)) (active (ver_rank v) lv t).
Proof.
  intros (ls & ps & vs & k & I1 & I2 & I3 & I4 & V & M). unfold active.
  apply in_flat_map. exists (n, ls). split; [exact I1|]. cbn [fst snd].
  apply in_flat_map. exists (lv, ps). split; [exact I2|]. cbn [fst snd]. rewrite Z.eqb_refl.
  apply in_flat_map. exists (p, vs). split; [exact I3|]. cbn [fst snd].
  apply in_map_iff. exists e. split; [reflexivity|]. unfold newest.
  apply in_flat_map. exists (k, e). split; [exact I4|]. cbn [fst snd].
  rewrite <- ver_rank_ge in V. rewrite V. cbn [andb].
  assert (F : forallb (fun ke' => negb (vlit_pos (fst ke') <=? ver_rank v) || (vlit_pos (fst ke') <=? vlit_pos k)) vs = true).
  { apply forallb_forall. intros [k' e'] I. cbn [fst]. destruct (vlit_pos k' <=? ver_rank v) eqn:E; [|reflexivity].
    cbn [negb orb]. rewrite ver_rank_ge in E. apply Z.leb_le, vlit_names, (M k' e' I E). }
  rewrite F. left. reflexivity.
Qed.
Lemma in_named_rows rows n x : In (n, x) rows -> In x (named_rows rows n).
Proof.
  intros I. unfold named_rows. apply in_flat_map. exists (n, x). split; [exact I|]. cbn [fst snd].
  rewrite String.eqb_refl. left. reflexivity.
Qed.
Lemma literal_written : forall e q, literal e = Some q -> written e q.
Proof.
  fix IH 1. intros e q H. destruct e as [| |z|n d| | | | | | | |o a b| | | | | | | | | | | |f args kws| | | | |]; try discriminate H.
  - cbn [literal] in H. injection H as <-. constructor.
  - cbn [literal] in H. injection H as <-. constructor.
  - destruct o; try discriminate H. cbn [literal] in H. destruct (literal a) as [x|] eqn:A; [|discriminate H].
    destruct (literal b) as [y|] eqn:B; [|discriminate H].
    assert (E : q = Qred (x * y)) by congruence. rewrite E. clear E H.
    eapply written_eq; [apply written_mul; [apply IH, A | apply IH, B]|]. symmetry. apply Qred_correct.
  - destruct args as [|a [|b args]]; try discriminate H. destruct kws; [|discriminate H].
    cbn [literal] in H. destruct (String.eqb_spec f "int") as [->|]; [|discriminate H].
    destruct (literal a) as [x|] eqn:A; [|discriminate H].
    destruct (Qeq_bool x (inject_Z (Qnum x))) eqn:E; [|discriminate H]. injection H as <-.
    apply Qeq_bool_iff in E. eapply written_eq; [|symmetry; exact E]. apply written_trunc.
    eapply written_eq; [apply IH, A | exact E].
Qed.

(** ** Presses *)

Lemma damage_at_spec s m q : In q (damage_at s m) <-> exists d, get_damage_spec s m = Ok (Some d) /\ potency d = q.
Proof.
  unfold damage_at. destruct (get_damage_spec s m) as [[d|]|e]; cbn.
  - split; [intros [E|[]]; eauto | intros (d' & [= <-] & E); auto].
  - split; [intros [] | intros (d' & H & _); discriminate].
  - split; [intros [] | intros (d' & H & _); discriminate].
Qed.
Lemma press_hits_spec s m q : In q (press_hits s m) <-> hits_for s m q.
Proof.
  unfold press_hits. rewrite in_app_iff, damage_at_spec. split.
  - intros [(d & G & E)|H]; [exact (hits_itself s m q d G E)|].
    destruct (get_follow_up_skills s m) as [fs|e] eqn:F; [|destruct H].
    apply in_flat_map in H as (fu & I & H). destruct (fu_dot fu) eqn:D; [destruct H|].
    apply damage_at_spec in H as (d & G & E). exact (hits_later s m q fs fu d F I D G E).
  - intros [d G E|fs fu d F I D G E]; [left; eauto|]. right. rewrite F. apply in_flat_map. exists fu. split; [exact I|].
    rewrite D. apply damage_at_spec. eauto.
Qed.
Lemma all_equal_spec z l : all_equal z l = true -> (exists q, In q l) /\ forall q, In q l -> (q == z)%Q.
Proof.
  unfold all_equal. destruct l as [|x l]; [discriminate|]. rewrite forallb_forall. intros H. split; [exists x; left; reflexivity|].
  intros q I. apply Qeq_bool_iff, H, I.
Qed.
Lemma press_equal s m z : all_equal z (press_hits s m) = true ->
  (exists q, hits_for s m q) /\ forall q, hits_for s m q -> (q == z)%Q.
Proof.
  intros H. apply all_equal_spec in H as [(q & I) H]. split; [exists q; apply press_hits_spec, I|].
  intros q' I'. apply H, press_hits_spec, I'.
Qed.
Lemma off_table_spec j n : off_tableb j n = true <-> off_table j n.
Proof.
  unfold off_tableb, off_table. rewrite !orb_true_iff, !andb_true_iff, !String.eqb_eq, !smem_spec. tauto.
Qed.

(** ** The shipped classes *)

Lemma in_filtered c (b : bool) (n r : Z) (l : list (pclass * bool)) :
  In (c, b) l -> (b = true -> n <= r) -> In c (map fst (filter (fun cb => implb (snd cb) (n <=? r)) l)).
Proof.
  intros I B. apply in_map_iff. exists (c, b). split; [reflexivity|]. apply filter_In. split; [exact I|].
  cbn [fst snd]. destruct b; [apply Z.leb_le, B; reflexivity | reflexivity].
Qed.
Local Strategy expand [loaded_classes].
Lemma in_loaded_classes c (b : bool) r : In (c, b) job_classes -> (b = true -> vlit_pos V70 <= r) -> In c (loaded_classes r).
Proof. exact (in_filtered c b (vlit_pos V70) r job_classes). Qed.
Local Strategy 1000 [loaded_classes].
Lemma job_combined r l c cs own cl js :
  mapM (load_job r l) cl = Ok js -> In c cl -> load_class r l c = Ok cs -> cs_skills cs = Ok own -> In (c, (cs, own)) (combine cl js).
Proof.
  intros H I LC S. revert js H. induction cl as [|d cl IH]; intros js H; [destruct I|]. cbn [mapM] in H.
  apply bind_ok in H as (y & E & H). apply bind_ok in H as (js' & E' & H). injection H as <-. cbn [combine].
  destruct I as [->|I]; [left | right; apply IH; assumption].
  unfold load_job in E. rewrite LC in E. cbn [bind] in E. apply bind_ok in E as (o & E1 & E). injection E as <-.
  unfold class_list in E1. rewrite S in E1. injection E1 as ->. reflexivity.
Qed.
Local Opaque load_job load_class loaded_classes pot_skill.
Lemma point_tables r l js :
  point_ok r l = true -> load_jobs r l = Ok js -> tables_at r l (loaded_classes r) js = true.
Proof.
  unfold point_ok. destruct (load_jobs r l) as [js'|] eqn:J; [|discriminate].
  destruct (mapM _ (pots r)) as [ps'|] eqn:P; [|discriminate]. intros K [= ->]. apply andb_true_iff in K as [_ K]. exact K.
Qed.
Lemma loaded_tables v lv js :
  loads v lv -> load_jobs (ver_rank v) (lev_rank lv) = Ok js ->
  forallb (fun cx => class_tabled (ver_rank v) lv (fst cx) (snd cx)) (combine (loaded_classes (ver_rank v)) js) = true
  /\ off_at (ver_rank v) lv js = true.
Proof.
  intros L J. assert (KL : lev_key (lev_rank lv) = Some lv) by (destruct L as [[-> _]|[-> _]]; reflexivity).
  apply loads_point in L. pose proof points_ok as K. rewrite forallb_forall in K.
  specialize (K _ (supported_points _ _ (ver_rank_range v) L)). cbn [fst snd] in K.
  apply (point_tables _ _ js) in K; [|exact J]. unfold tables_at in K. rewrite KL in K.
  rewrite !andb_true_iff in K. tauto.
Qed.
Lemma own_tabled v lv lib c cs own s :
  create_skill_library v lv = Ok lib -> In c (loaded_classes (ver_rank v)) ->
  load_class (ver_rank v) (lev_rank lv) c = Ok cs -> cs_skills cs = Ok own -> In s own ->
  let rows := active (ver_rank v) lv (c_data c) in
  own_ok (cs_job cs) rows s = true
  /\ forall p, part_of p s -> part_tabled rows (negb (String.eqb (sk_name s) "Eukrasian Dyskrasia")) p = true.
Proof.
  intros C I LC S IS rows. assert (L : loads v lv) by (apply loads_iff; eauto).
  destruct (library_point v lv lib C) as (js & ps & _ & J & _).
  destruct (loaded_tables v lv js L J) as [T _]. rewrite forallb_forall in T.
  unfold load_jobs in J. specialize (T _ (job_combined _ _ c cs own _ js J I LC S)). cbn [fst snd] in T.
  unfold class_tabled in T. cbv zeta in T. rewrite forallb_forall in T. specialize (T s IS).
  apply andb_true_iff in T as [A B]. split; [exact A|]. intros p P. exact (all_parts_sound _ p s P 6 B).
Qed.

Lemma shipped_potency v lv lib c cs own s param m z :
  create_skill_library v lv = Ok lib -> In c (loaded_classes (ver_rank v)) ->
  load_class (ver_rank v) (lev_rank lv) c = Ok cs -> cs_skills cs = Ok own -> In s own ->
  tabled (c_data c) v lv (sk_name s) param (EInt z) -> In (param, m) potency_of -> ~ off_table (cs_job cs) (sk_name s) ->
  (exists q, hits_for s (cond_modifier m) q) /\ forall q, hits_for s (cond_modifier m) q -> (q == inject_Z z)%Q.
Proof.
  intros C I LC S IS T IP N. destruct (own_tabled v lv lib c cs own s C I LC S IS) as [A _]. unfold own_ok in A.
  destruct (off_tableb (cs_job cs) (sk_name s)) eqn:O; [apply off_table_spec in O; contradiction|].
  rewrite forallb_forall in A. specialize (A _ (in_named_rows _ _ _ (tabled_active _ _ _ _ _ _ T))).
  unfold potency_row_ok in A. cbn [fst snd] in A.
  assert (G : dget param potency_of = Some m).
  { cbn in IP. repeat (destruct IP as [IP|IP]; [injection IP as <- <-; reflexivity|]). destruct IP. }
  rewrite G in A. apply press_equal, A.
Qed.
Lemma shipped_effects v lv lib c cs own s p e ef :
  create_skill_library v lv = Ok lib -> In c (loaded_classes (ver_rank v)) ->
  load_class (ver_rank v) (lev_rank lv) c = Ok cs -> cs_skills cs = Ok own -> In s own ->
  part_of p s -> In ef (effects_of p) ->
  (tabled (c_data c) v lv (sk_name p) "duration" e -> exists z, duration ef = Fin z /\ written e (inject_Z z))
  /\ (tabled (c_data c) v lv (sk_name p) "damage_mult" e -> exists n d, e = EFlt n d /\ (damage_mult ef == dec n d)%Q).
Proof.
  intros C I LC S IS P IE. destruct (own_tabled v lv lib c cs own s C I LC S IS) as [_ B]. specialize (B p P).
  unfold part_tabled in B. apply andb_true_iff in B as [B _].
  assert (B' : forallb (effect_row_ok (effects_of p)) (named_rows (active (ver_rank v) lv (c_data c)) (sk_name p)) = true).
  { destruct (effects_of p); [destruct IE | exact B]. }
  clear B. rewrite forallb_forall in B'.
  split; intros T; specialize (B' _ (in_named_rows _ _ _ (tabled_active _ _ _ _ _ _ T))); unfold effect_row_ok in B';
    cbn [fst snd String.eqb Ascii.eqb Bool.eqb] in B'.
  - destruct (effects_of p) as [|x es]; [destruct IE|]. destruct (literal e) as [q|] eqn:Q; [|discriminate].
    rewrite forallb_forall in B'. specialize (B' ef IE). unfold is_fin in B'. destruct (duration ef) as [z|]; [|discriminate].
    exists z. split; [reflexivity|]. apply Qeq_bool_iff in B'. eapply written_eq; [apply literal_written, Q|]. symmetry. exact B'.
  - destruct e; try discriminate. exists n, d. split; [reflexivity|]. rewrite forallb_forall in B'.
    apply Qeq_bool_iff, B', IE.
Qed.
Lemma shipped_dots v lv lib c cs own s p fu d :
  create_skill_library v lv = Ok lib -> In c (loaded_classes (ver_rank v)) ->
  load_class (ver_rank v) (lev_rank lv) c = Ok cs -> cs_skills cs = Ok own -> In s own ->
  sk_name s <> "Eukrasian Dyskrasia" -> part_of p s -> dot_follow_up p fu d ->
  (forall e, tabled (c_data c) v lv (sk_name (fu_skill fu)) "duration" e -> written e (inject_Z d))
  /\ (forall z, tabled (c_data c) v lv (sk_name (fu_skill fu)) "potency" (EInt z) ->
       exists t, get_damage_spec (fu_skill fu) (cond_modifier []) = Ok (Some t) /\ (potency t == inject_Z z)%Q).
Proof.
  intros C I LC S IS NE P [IF FD]. destruct (own_tabled v lv lib c cs own s C I LC S IS) as [_ B]. specialize (B p P).
  unfold part_tabled in B. apply andb_true_iff in B as [_ B].
  apply String.eqb_neq in NE. rewrite NE in B. cbn [negb] in B. rewrite forallb_forall in B. specialize (B fu IF).
  unfold fu_ok in B. rewrite FD in B. rewrite forallb_forall in B.
  split; [intros e T | intros z T]; specialize (B _ (in_named_rows _ _ _ (tabled_active _ _ _ _ _ _ T))); unfold dot_row_ok in B;
    cbn [fst snd String.eqb Ascii.eqb Bool.eqb] in B.
  - destruct (literal e) as [q|] eqn:Q; [|discriminate]. apply Qeq_bool_iff in B.
    eapply written_eq; [apply literal_written, Q|]. symmetry. exact B.
  - apply all_equal_spec in B as [(q & H) B]. specialize (B q H). apply damage_at_spec in H as (t & G & E). exists t.
    split; [exact G|]. rewrite E. exact B.
Qed.

(** ** Skills that ignore the tables *)

Lemma hits_at_get v lv lib js ps j n q :
  lib = point_lib v lv js ps -> NoDup (map lj_job js) -> (forall x, In x js -> NoDup (map sk_name (full ps x))) ->
  hits_at js j n q = true ->
  exists s, get_skill lib n j = Ok s /\ (exists x, hits_for s (cond_modifier []) x)
    /\ forall x, hits_for s (cond_modifier []) x -> (x == q)%Q.
Proof.
  intros -> N1 N2 H. unfold hits_at in H. apply existsb_exists in H as (x & I & H). apply andb_true_iff in H as [E H].
  apply String.eqb_eq in E. apply existsb_exists in H as (s & IS & H). apply andb_true_iff in H as [En H].
  apply String.eqb_eq in En. exists s. split; [|apply press_equal, H].
  apply (point_get v lv js ps j n s N1 N2). split; [exact En|]. exists x. split; [exact I|]. split; [exact E|].
  rewrite !in_app_iff. auto.
Qed.
Lemma shipped_off v lib j n q :
  create_skill_library v 100 = Ok lib ->
  In (j, n, q) [("DRG", "Spiral Blow", 300); ("DRG", "Starcross", 700);
                ("DNC", "Technical Finish", 1200); ("DNC", "Quadruple Technical Finish", 1300)] ->
  exists s, get_skill lib n j = Ok s /\ (exists x, hits_for s (cond_modifier []) x)
    /\ forall x, hits_for s (cond_modifier []) x -> (x == inject_Z q)%Q.
Proof.
  intros C I. assert (L : loads v 100) by (apply loads_iff; eauto).
  destruct (library_point v 100 lib C) as (js & ps & E & J & _ & _ & N1 & N2 & _).
  destruct (loaded_tables v 100 js L J) as [_ O]. unfold off_at in O. change (100 =? 100) with true in O. cbv iota in O.
  rewrite !andb_true_iff in O. destruct O as [[[O1 O2] O3] O4].
  destruct I as [I|[I|[I|[I|[]]]]]; injection I as <- <- <-; eapply hits_at_get; eauto.
Qed.

Lemma newest_in patches k e v t lv n p levels params :
  In (n, levels) t -> In (lv, params) levels -> In (p, patches) params -> In (k, e) patches ->
  str_leb (vlit_name k) v = true ->
  forallb (fun ke => (vlit_pos (fst ke) <=? vlit_pos k) || negb (str_leb (vlit_name (fst ke)) v)) patches = true ->
  tabled t v lv n p e.
Proof.
  intros A B C D E F. exists levels, params, patches, k. repeat (split; [assumption|]). intros k' e' I V.
  rewrite forallb_forall in F. specialize (F _ I). cbn [fst] in F. rewrite V in F. cbn [negb] in F. rewrite orb_false_r in F.
  destruct k, k'; try reflexivity; discriminate F.
Qed.
Lemma looked_up t v lv n p e k levels params patches :
  dget n t = Some levels -> zget lv levels = Some params -> dget p params = Some patches -> In (k, e) patches ->
  str_leb (vlit_name k) v = true ->
  forallb (fun ke => (vlit_pos (fst ke) <=? vlit_pos k) || negb (str_leb (vlit_name (fst ke)) v)) patches = true ->
  tabled t v lv n p e.
Proof.
  intros A B C. apply newest_in with (levels := levels) (params := params); [apply dget_In, A | apply zget_In, B | apply dget_In, C].
Qed.
Lemma spiral_blow v lib :
  create_skill_library v 100 = Ok lib ->
  tabled (c_data drg_class) v 100 "Spiral Blow" "potency" (EInt 340)
  /\ exists s, get_skill lib "Spiral Blow" "DRG" = Ok s /\ (exists q, hits_for s (cond_modifier []) q)
     /\ forall q, hits_for s (cond_modifier []) q -> (q == 300)%Q.
Proof.
  intros C. split; [|apply (shipped_off v lib "DRG" "Spiral Blow" 300 C); cbn; tauto].
  assert (V : str_leb "7.0" v = true).
  { assert (L : loads v 100) by (apply loads_iff; eauto). destruct L as [[L _]|[_ L]]; [discriminate L | exact L]. }
  eapply (looked_up _ _ _ _ _ _ V70 _ _ [(V70, EInt 340)]); [reflexivity | reflexivity | reflexivity | left; reflexivity | exact V | reflexivity].
Qed.
Lemma starcross v lib :
  create_skill_library v 100 = Ok lib -> str_leb "7.1" v = true ->
  tabled (c_data drg_class) v 100 "Starcross" "potency" (EInt 1000)
  /\ exists s, get_skill lib "Starcross" "DRG" = Ok s /\ (exists q, hits_for s (cond_modifier []) q)
     /\ forall q, hits_for s (cond_modifier []) q -> (q == 700)%Q.
Proof.
  intros C V. split; [|apply (shipped_off v lib "DRG" "Starcross" 700 C); cbn; tauto].
  eapply (looked_up _ _ _ _ _ _ V71 _ _ [(V70, EInt 700); (V705, EInt 900); (V71, EInt 1000)]); [reflexivity | reflexivity | reflexivity | right; right; left; reflexivity | exact V | reflexivity].
Qed.
Lemma technical_finish v lib :
  create_skill_library v 100 = Ok lib ->
  exists s q, get_skill lib "Technical Finish" "DNC" = Ok s /\ get_skill lib "Quadruple Technical Finish" "DNC" = Ok q
    /\ (exists x, hits_for s (cond_modifier []) x) /\ (exists y, hits_for q (cond_modifier []) y)
    /\ forall x y, hits_for s (cond_modifier []) x -> hits_for q (cond_modifier []) y -> (x + 100 == y)%Q.
Proof.
  intros C. destruct (shipped_off v lib "DNC" "Technical Finish" 1200 C) as (s & G & E & H); [cbn; tauto|].
  destruct (shipped_off v lib "DNC" "Quadruple Technical Finish" 1300 C) as (s' & G' & E' & H'); [cbn; tauto|].
  exists s, s'. repeat (split; [assumption|]). intros x y X Y. rewrite (H x X), (H' y Y). reflexivity.
Qed.
Lemma classes_load v lv lib c :
  create_skill_library v lv = Ok lib -> In c (loaded_classes (ver_rank v)) ->
  exists cs own, load_class (ver_rank v) (lev_rank lv) c = Ok cs /\ class_list cs = Ok own.
Proof.
  intros C I. destruct (library_point v lv lib C) as (js & ps & _ & J & _). unfold load_jobs in J. revert js J.
  induction (loaded_classes (ver_rank v)) as [|d cl IH]; intros js H; [destruct I|]. cbn [mapM] in H.
  apply bind_ok in H as (y & E & H). apply bind_ok in H as (js' & E' & H).
  destruct I as [->|I]; [|exact (IH I js' E')].
  Local Transparent load_job.
  unfold load_job in E. apply bind_ok in E as (cs & E1 & E). apply bind_ok in E as (o & E2 & _). eauto.
Qed.

Lemma drg_table_case : exists lib cs own,
  create_skill_library "7.05" 100 = Ok lib /\ In drg_class (loaded_classes (ver_rank "7.05"))
  /\ load_class (ver_rank "7.05") (lev_rank 100) drg_class = Ok cs /\ class_list cs = Ok own
  /\ tabled (c_data drg_class) "7.05" 100 "Chaotic Spring" "potency_no_combo" (EInt 180)
  /\ tabled (c_data drg_class) "7.05" 100 "Chaotic Spring (dot)" "duration" (EBin BMul (EInt 24) (EInt 1000)).
Proof.
  assert (L : loads "7.05" 100) by (right; split; reflexivity).
  apply loads_iff in L as (lib & C). assert (I : In drg_class (loaded_classes (ver_rank "7.05"))).
  { apply (in_loaded_classes drg_class false); [|discriminate]. apply (nth_error_In job_classes 15). reflexivity. }
  destruct (classes_load _ _ _ _ C I) as (cs & own & A & B). exists lib, cs, own.
  split; [exact C|]. split; [exact I|]. split; [exact A|]. split; [exact B|]. clear. split.
  - eapply (looked_up _ _ _ _ _ _ V70 _ _ [(V70, EInt 180)]); [reflexivity | reflexivity | reflexivity | left; reflexivity | reflexivity | reflexivity].
  - eapply (looked_up _ _ _ _ _ _ V70 _ _ [(V70, EBin BMul (EInt 24) (EInt 1000))]); [reflexivity | reflexivity | reflexivity | left; reflexivity | reflexivity | reflexivity].
Qed.
