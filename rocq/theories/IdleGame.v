(** * Waits of the shipped libraries change nothing else (C75) *)

From Coq Require Import ZArith QArith List String Bool Lia.
From Verif Require Import Base BaseFacts PyFacts Strings Types Lookup JobResource Stats Library LibraryFacts Events Rotation GameLib GameFacts GameCheck ExampleCheck GamePoints GameLoad GameProps
  SpecGame SpecPlay SpecTimeline SpecRun SpecLater SpecReplay SpecShuffle SpecIdle RunProps SafeGame ShuffleFacts IdleFacts MoveGame.
Import ListNotations.
Open Scope string_scope.
Open Scope Z_scope.

Lemma no_wait_not l i : no_wait l = true -> ~ In (wait_name i) l.
Proof. unfold no_wait. rewrite forallb_forall. intros H I. specialize (H _ I). rewrite wait_prefix in H. discriminate H. Qed.
Lemma usesb_apart e i : usesb e = true -> uses_apart (wait_name i) e.
Proof.
  unfold usesb, uses_apart. intros H.
  assert (A : match se_allowlist e with Some l => no_wait l | None => false end = true -> exists l, se_allowlist e = Some l /\ ~ In (wait_name i) l).
  { destruct (se_allowlist e) as [l|]; [|discriminate]. intros K. exists l. split; [reflexivity | apply no_wait_not, K]. }
  destruct (num_uses e), (max_num_uses e); auto.
Qed.
Lemma shipped_uses v lv lib n j s p e i :
  create_skill_library v lv = Ok lib -> get_skill lib n j = Ok s -> part_of p s -> In e (SpecGame.effects_of p) -> uses_apart (wait_name i) e.
Proof.
  intros C G P I. destruct (part_facts v lv lib n j s p C G P) as (sks & rs & K & _).
  unfold part_ok in K. cbv zeta in K. rewrite !andb_true_iff in K. destruct K as [_ [_ [_ K]]].
  unfold uses_ok in K. rewrite forallb_forall in K. apply usesb_apart, K, I.
Qed.
Lemma shipped_resources_wait v lv lib j rs n c i :
  create_skill_library v lv = Ok lib -> get_all_resource_settings lib j = Ok rs -> In (n, c) rs -> ~ In (wait_name i) (jrs_allowlist c).
Proof.
  intros C E I. destruct (loaded v lv) as (js & ps & J & P & N & K & _ & M & _ & X).
  { apply loads_iff. exists lib. exact C. }
  rewrite C in X. injection X as ->. destruct (loaded_nodup js ps _ _ N K M J) as [N1 _].
  unfold get_all_resource_settings, point_lib, lib_of in E. cbn [lib_resources] in E.
  destruct (dget j (map (fun x => (lj_job x, set_resources (cs_resources (fst x)))) js)) as [rs'|] eqn:D; [|discriminate E].
  cbn [of_option] in E. injection E as <-.
  apply (dget_jobs (fun x => set_resources (cs_resources (fst x))) js j _ N1) in D as (x & Ix & <- & <-).
  rewrite forallb_forall in K. specialize (K x Ix). unfold job_ok in K. rewrite !andb_true_iff in K. destruct K as [[_ [_ L]] _].
  unfold resources_waitb in L. rewrite forallb_forall in L. apply set_resources_in in I. specialize (L _ I). cbn [snd] in L.
  apply no_wait_not, L.
Qed.
Lemma shipped_uncounted v lv b i :
  create_skill_library v lv = Ok (b_library b) -> built b -> uncounted b (wait_name i).
Proof.
  intros C B. split.
  - intros s p e I P E. destruct (reach_skills b (built_reachable _ B) s I) as (n & j & G). exact (shipped_uses _ _ _ _ _ _ _ _ i C G P E).
  - intros rs n cfg E I. exact (shipped_resources_wait _ _ _ _ _ _ _ i C E I).
Qed.
Lemma shipped_job v lv lib n j s : create_skill_library v lv = Ok lib -> get_skill lib n j = Ok s -> In j (get_jobs lib).
Proof.
  intros C G. destruct (library_point v lv lib C) as (js & ps & -> & J & P & N & N1 & N2 & _).
  apply point_get in G as (_ & x & I & <- & _); [|exact N1|exact N2]. unfold point_lib. rewrite get_jobs_lib_of. apply in_map, I.
Qed.
Lemma shipped_wait v lv lib j s k :
  create_skill_library v lv = Ok lib -> 0 <= k < 1000 -> get_skill lib (wait_name (10 * k)) j = Ok s -> s = wait_skill (10 * k).
Proof.
  intros C K G. pose proof (shipped_job _ _ _ _ _ _ C G) as J.
  assert (E : get_skill lib (sk_name (wait_skill (10 * k))) j = Ok (wait_skill (10 * k))).
  { apply (shipped_common v lv lib j _ C J). apply in_or_app. right. apply wait_skills_in, K. }
  change (sk_name (wait_skill (10 * k))) with (wait_name (10 * k)) in E. rewrite G in E. injection E as ->. reflexivity.
Qed.
Lemma wait_idle i : idle (wait_skill i).
Proof. intros m. repeat split. Qed.
Lemma follow_library b l b' : follow b l = Ok b' -> b_library b' = b_library b.
Proof. intros F. apply follow_spec in F as (_ & ->). reflexivity. Qed.
Lemma skill_pressed b l1 i l2 b' :
  follow b (l1 ++ i :: l2)%list = Ok b' -> exists s, skill_for b (match i with NextPress c _ => c | PressAt _ c => c end) = Ok s.
Proof.
  intros F. apply follow_spec in F as (F & _). apply Forall_app in F as (_ & F). inversion F as [|? ? (s & H) _]; subst.
  exists s. destruct i; exact H.
Qed.

Lemma shipped_timed_wait v lv b0 l1 t c l2 k b r :
  create_skill_library v lv = Ok (b_library b0) -> built b0 -> b_autos b0 = false -> b_ignore_trailing b0 = false ->
  c_name c = wait_name (10 * k) -> 0 <= k < 1000 ->
  follow b0 (l1 ++ PressAt t c :: l2)%list = Ok b -> distinct_times b -> get_skill_timing b = Ok r ->
  exists s b' r', sk_name s = wait_name (10 * k) /\ follow b0 (l1 ++ l2)%list = Ok b' /\ get_skill_timing b' = Ok r' /\ one_more s r' r.
Proof.
  intros C B Au Tr N K F D H. destruct (skill_pressed _ _ _ _ _ F) as (s & G). cbn in G.
  assert (W : s = wait_skill (10 * k)).
  { unfold skill_for in G. rewrite N in G. exact (shipped_wait _ _ _ _ _ _ C K G). }
  exists s. destruct (timed_left_out b0 l1 t c l2 s b r B Au Tr F D G) as (b' & r' & R).
  - rewrite W. apply wait_idle.
  - rewrite W. change (sk_name (wait_skill (10 * k))) with (wait_name (10 * k)). apply (shipped_uncounted v lv).
    + rewrite (follow_library _ _ _ F). exact C.
    + exact (follow_built _ _ _ B F).
  - exact H.
  - exists b', r'. rewrite W in *. auto.
Qed.
Lemma shipped_locks v lv b : create_skill_library v lv = Ok (b_library b) -> built b -> nonneg_locks b.
Proof.
  intros C B s m spec I E. destruct (reach_skills b (built_reachable _ B) s I) as (n & j & G).
  destruct (shipped_numbers v lv _ n j s s C G (part_self s)) as (T & _). destruct (T spec) as (_ & _ & L & _); [|exact L].
  unfold timings_of, cvalues, get_timing_spec, cspec_get in *. destruct (sk_timing s) as [|x|d]; [discriminate | injection E as <-; left; reflexivity|].
  unfold clookup in E. inv_bind E. unfold of_option in E. destruct (cget a d) as [z|] eqn:Z; [|discriminate]. injection E as ->.
  clear E0 T. apply in_flat_map. revert Z. induction d as [|[k0 x0] l IH]; cbn; [discriminate|].
  destruct (cond_eqb a k0); intros Z.
  - injection Z as ->. exists (k0, Some spec). cbn. auto.
  - destruct (IH Z) as (u & A & A'). eauto.
Qed.
Lemma shipped_next_wait v lv b0 l1 c l2 k b1 b r :
  create_skill_library v lv = Ok (b_library b0) -> built b0 -> b_autos b0 = false -> b_ignore_trailing b0 = false ->
  c_name c = wait_name (10 * k) -> 0 <= k < 1000 -> follow b0 l1 = Ok b1 ->
  follow b0 (l1 ++ NextPress c 1 :: l2)%list = Ok b -> fits b (List.length (b_sequence b1)) -> get_skill_timing b = Ok r ->
  exists s b' r', sk_name s = wait_name (10 * k) /\ follow b0 (l1 ++ l2)%list = Ok b' /\ get_skill_timing b' = Ok r' /\ one_more s r' r.
Proof.
  intros C B Au Tr N K F1 F Fi H. destruct (skill_pressed _ _ _ _ _ F) as (s & G). cbn in G.
  assert (W : s = wait_skill (10 * k)).
  { unfold skill_for in G. rewrite N in G. exact (shipped_wait _ _ _ _ _ _ C K G). }
  assert (C' : create_skill_library v lv = Ok (b_library b)) by (rewrite (follow_library _ _ _ F); exact C).
  pose proof (follow_built _ _ _ B F) as B'.
  exists s. destruct (next_left_out b0 l1 c l2 s b1 b r B Au Tr F1 F G) as (b' & r' & R).
  - rewrite W. apply wait_idle.
  - rewrite W. reflexivity.
  - rewrite W. change (sk_name (wait_skill (10 * k))) with (wait_name (10 * k)). exact (shipped_uncounted v lv b _ C' B').
  - exact (shipped_locks v lv b C' B').
  - exact Fi.
  - exact H.
  - exists b', r'. rewrite W in *. auto.
Qed.
