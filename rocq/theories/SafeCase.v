(** * Shipped rotations, run *)

From Coq Require Import ZArith QArith List String Bool Lia.
From Verif Require Import Base BaseFacts Float Types Lookup Stats Library Events Rotation SpecGame Py GameLib GameFacts GameCheck ExampleCheck GamePoints
  GameLoad GameProps SpecTimeline SpecHit SpecRun SpecAuto SpecSafe RunProps SafeGame.
Import ListNotations.
Open Scope string_scope.
Open Scope Z_scope.

(** The library of patch 7.05 at level 100, without computing it in full. *)
Definition case_lib : library :=
  match load_jobs (ver_rank "7.05") (lev_rank 100),
        mapM (fun nm => pot_skill (ver_rank "7.05") (lev_rank 100) (fst nm) (snd nm)) (pots (ver_rank "7.05")) with
  | Ok js, Ok ps => point_lib "7.05" 100 js ps
  | _, _ => lib_init "7.05" 100
  end.
Lemma case_created : create_skill_library "7.05" 100 = Ok case_lib.
Proof.
  destruct (loaded "7.05" 100) as (js & ps & J & P & _ & _ & _ & _ & _ & E); [right; split; reflexivity|].
  rewrite E. unfold case_lib. rewrite J, P. reflexivity.
Qed.

Definition case_gear (job : string) : gear :=
  mkGear 132 (Some (336 # 100)) 3330 2182 1596 2540 400 job "7.05" (Some 400%Q) 5 None 100.
(** A builder of job [job] with the presses [(seconds, skill, job)] added. *)
Definition case_builder (job : string) (autos : bool) (presses : list (Z * string * string)) : res builder :=
  let* st := stats_of (case_gear job) in
  let* b := rb_init st case_lib None autos false (Some 0) (RWTuple [(5, 6, None)%Q]) "Boss" in
  foldM (fun b x => add b (inject_Z (fst (fst x))) (snd (fst x)) None (Some (snd x)) None) presses b.

Definition party_presses : list (Z * string * string) :=
  [(0, "Heavy Swing", "WAR"); (1, "Chain Stratagem", "SCH"); (2, "Inner Release", "WAR"); (3, "Fell Cleave", "WAR")].

Lemma case_reachable job autos presses b : case_builder job autos presses = Ok b -> reachable b /\ b_library b = case_lib.
Proof.
  unfold case_builder. intros H. apply bind_ok in H as (st & _ & H). apply bind_ok in H as (b0 & I & H).
  assert (R : reachable b0 /\ b_library b0 = case_lib).
  { split; [eapply reach_init, I|]. unfold rb_init in I. repeat (apply bind_ok in I as (? & _ & I)). injection I as <-. reflexivity. }
  clear I. revert b0 R H. induction presses as [|x l IH]; intros b0 [R L] H.
  - injection H as <-. auto.
  - cbn [foldM] in H. apply bind_ok in H as (b1 & A & H). apply (IH b1); [|exact H]. split; [eapply reach_add; eassumption|].
    destruct (add_fields _ _ _ _ _ _ _ A) as (? & ? & ? & _ & -> & _). exact L.
Qed.

(** ** Checking the hypotheses of C64 *)

Definition press_ok (s : skill) : bool :=
  all_parts 6 (fun p => forallb jr_clear_all (changes_of p) && negb (String.eqb (sk_name p) "Automaton Queen")) s.
Definition hits (s : skill) : bool := match sk_damage s with COne _ => true | _ => false end.
Definition case_ok (b : builder) : bool :=
  smem (st_job (b_stats b)) (get_jobs (b_library b))
  && match b_sequence b with [] => true | _ => false end
  && forallb (fun x => press_ok (tm_skill x) && str_nodupb (sm_cond (tm_modifier x))) (b_timed b)
  && str_nodupb (map (fun x => sk_name (tm_skill x)) (b_timed b))
  && existsb (fun x => hits (tm_skill x)) (b_timed b)
  && Qle_bool 1 (st_weapon_delay (b_stats b))
  && negb (String.eqb (st_job (b_stats b)) "VPR")
  && match b_windows b with
     | WTuple l => forallb (fun w => Qeq_bool (w_end w) (inject_Z (qtrunc (w_end w)))) l
     | WDict _ => false
     end.

Lemma nodup_map_inj {A B} (f : A -> B) l : NoDup (map f l) -> forall x y, In x l -> In y l -> f x = f y -> x = y.
Proof.
  induction l as [|z l IH]; cbn; intros N x y I J E; [destruct I|]. inversion N as [|? ? K M]; subst.
  destruct I as [->|I], J as [->|J]; auto; exfalso; apply K; [rewrite E|rewrite <- E]; apply in_map; assumption.
Qed.
Lemma case_stats job autos presses b : case_builder job autos presses = Ok b -> stats_of (case_gear job) = Ok (b_stats b).
Proof.
  unfold case_builder. intros H. apply bind_ok in H as (st & -> & H). apply bind_ok in H as (b0 & I & H).
  assert (R : b_stats b0 = st). { unfold rb_init in I. apply bind_ok in I as (? & _ & I). injection I as <-. reflexivity. }
  clear I. revert b0 R H. induction presses as [|x l IH]; intros b0 R H.
  - injection H as <-. congruence.
  - cbn [foldM] in H. apply bind_ok in H as (b1 & A & H). apply (IH b1); [|exact H].
    destruct (add_fields _ _ _ _ _ _ _ A) as (? & ? & ? & _ & -> & _). exact R.
Qed.
Lemma case_sound job autos presses b :
  case_builder job autos presses = Ok b -> case_ok b = true ->
  shipped_rotation "7.05" 100 b /\ shipped_autos "7.05" b.
Proof.
  intros E K. destruct (case_reachable _ _ _ _ E) as [R L]. apply case_stats in E.
  unfold case_ok in K. rewrite !andb_true_iff in K. destruct K as [[[[[[[K1 K2] K3] K4] K5] K6] K7] K8].
  rewrite forallb_forall in K3. destruct (b_sequence b) eqn:Sq; [clear K2|discriminate K2].
  assert (T : forall s, In s (skills_of b) -> exists x, In x (b_timed b) /\ s = tm_skill x /\ press_ok s = true).
  { intros s I. unfold skills_of in I. rewrite Sq in I. cbn in I. apply in_map_iff in I as (x & <- & I). exists x.
    split; [exact I|]. split; [reflexivity|]. specialize (K3 x I). apply andb_true_iff in K3. apply K3. }
  assert (P : forall s p, In s (skills_of b) -> part_of p s ->
            forallb jr_clear_all (changes_of p) = true /\ sk_name p <> "Automaton Queen").
  { intros s p I Q. destruct (T s I) as (_ & _ & _ & H). apply (all_parts_sound _ p s Q) in H.
    apply andb_true_iff in H as [H1 H2]. split; [exact H1|]. apply negb_true_iff, String.eqb_neq in H2. exact H2. }
  split; [split; [rewrite L; exact case_created|]|].
  - split; [exists (case_gear job); exact E|]. split; [apply smem_spec, K1|].
    split; [intros s I; right; intros p c Q J; destruct (P s p I Q) as [H _]; rewrite forallb_forall in H; apply H, J|].
    split; [intros s p I Q; apply (P s p I Q)|]. split; [intros x I; rewrite Sq in I; destruct I|].
    split; [intros x I; specialize (K3 x I); apply andb_true_iff in K3 as [_ H]; apply str_nodupb_sound, H|].
    intros x y I J N. f_equal. apply (nodup_map_inj _ _ (str_nodupb_sound _ K4) x y I J N).
  - split.
    { apply existsb_exists in K5 as (x & I & H). exists (tm_skill x). split; [unfold skills_of; rewrite Sq; apply (in_map tm_skill), I|].
      intros m _. unfold hits in H. unfold get_damage_spec. destruct (sk_damage (tm_skill x)) as [|d|d]; try discriminate H.
      exists d. reflexivity. }
    split; [apply Qle_bool_iff, K6|]. split.
    { intros t w I. unfold windows_of in I. destruct (b_windows b) as [l|d]; [|discriminate K8]. rewrite forallb_forall in K8.
      exists (qtrunc (w_end w)). apply Qeq_bool_iff, K8. destruct (in_dec string_dec t (b_targets b)); [exact I|destruct I]. }
    intros V. rewrite V in K7. discriminate K7.
Qed.

(** ** The runs *)

Definition run_of (job : string) (autos : bool) (presses : list (Z * string * string)) : res builder :=
  let* b := case_builder job autos presses in get_skill_timing b.
Definition raised {A} (x : res A) : option err := match x with Ok _ => None | Err e => Some e end.
Definition case_check : option bool * list (option (option err)) :=
  (match case_builder "WAR" true party_presses with Ok b => Some (case_ok b) | Err _ => None end,
   map (fun x => match case_builder (fst (fst x)) (snd (fst x)) (snd x) with
                 | Ok b => Some (raised (get_skill_timing b)) | Err _ => None end)
     [("MCH", false, [(0, "Automaton Queen", "MCH")]);
      ("WAR", false, [(0, "Radiant Finale", "BRD")]);
      ("WAR", true, [(0, "Chain Stratagem", "SCH")])]).
Lemma case_checked :
  case_check = (Some true, [Some (Some KeyError); Some (Some KeyError); Some (Some TypeError)]).
Proof. vm_compute. reflexivity. Qed.

Lemma party_case : exists b, case_builder "WAR" true party_presses = Ok b
  /\ reachable b /\ shipped_rotation "7.05" 100 b /\ shipped_autos "7.05" b.
Proof.
  pose proof (f_equal fst case_checked) as K. unfold case_check in K. cbn [fst] in K.
  destruct (case_builder "WAR" true party_presses) as [b|] eqn:E; [|discriminate K]. exists b. split; [reflexivity|].
  injection K as K. split; [apply (case_reachable _ _ _ _ E)|]. exact (case_sound _ _ _ _ E K).
Qed.
Lemma raising_case job autos presses e :
  match case_builder job autos presses with
  | Ok b => Some (raised (get_skill_timing b)) | Err _ => None end = Some (Some e) ->
  exists b, case_builder job autos presses = Ok b /\ reachable b
    /\ create_skill_library "7.05" 100 = Ok (b_library b) /\ stats_of (case_gear job) = Ok (b_stats b)
    /\ get_skill_timing b = Err e.
Proof.
  destruct (case_builder job autos presses) as [b|] eqn:E; [|discriminate]. intros K. injection K as K.
  exists b. split; [reflexivity|]. destruct (case_reachable _ _ _ _ E) as [R L]. split; [exact R|].
  split; [rewrite L; exact case_created|]. split; [exact (case_stats _ _ _ _ E)|].
  unfold raised in K. destruct (get_skill_timing b); [discriminate K|]. injection K as ->. reflexivity.
Qed.
Local Opaque case_builder get_skill_timing.
Lemma three {A} (a b c a' b' c' : A) : [a; b; c] = [a'; b'; c'] -> a = a' /\ b = b' /\ c = c'.
Proof. intros H. injection H as -> -> ->. auto. Qed.
Lemma raising_cases :
  (exists b, case_builder "MCH" false [(0, "Automaton Queen", "MCH")] = Ok b /\ reachable b
    /\ create_skill_library "7.05" 100 = Ok (b_library b) /\ stats_of (case_gear "MCH") = Ok (b_stats b)
    /\ get_skill_timing b = Err KeyError)
  /\ (exists b, case_builder "WAR" false [(0, "Radiant Finale", "BRD")] = Ok b /\ reachable b
    /\ create_skill_library "7.05" 100 = Ok (b_library b) /\ stats_of (case_gear "WAR") = Ok (b_stats b)
    /\ get_skill_timing b = Err KeyError)
  /\ (exists b, case_builder "WAR" true [(0, "Chain Stratagem", "SCH")] = Ok b /\ reachable b
    /\ create_skill_library "7.05" 100 = Ok (b_library b) /\ stats_of (case_gear "WAR") = Ok (b_stats b)
    /\ get_skill_timing b = Err TypeError).
Proof.
  pose proof (f_equal snd case_checked) as K. unfold case_check in K. cbn [snd map fst] in K. apply three in K as (K1 & K2 & K3).
  split; [|split]; apply raising_case; assumption.
Qed.
