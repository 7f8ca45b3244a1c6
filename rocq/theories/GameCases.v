(** * A shipped skill for each theorem about shipped skills *)

From Coq Require Import ZArith QArith List String Bool.
From Verif Require Import Base BaseFacts Strings Types Lookup Library SpecGame Py PyFacts GameLib Data_NIN Data_DRG GameCheck
  GamePoints GameLoad GameProps DataFacts.
Import ListNotations.
Open Scope string_scope.
Open Scope Z_scope.

Definition nonempty {A} (l : list A) : bool := match l with [] => false | _ => true end.
Definition edge_ok (s : skill) : bool :=
  existsb (fun c => nonempty (combo_actions c)) (combos_of s)
  && existsb (fun c => negb (jr_clear_all c)) (changes_of s)
  && match get_follow_up_skills s (cond_modifier ["No Combo"]) with Ok fs => nonempty fs | _ => false end.
Definition doton_ok (s : skill) : bool :=
  existsb (fun fu => match fu_dot fu with Some _ => true | None => false end) (follow_ups_of s).
Definition bunshin_ok (s : skill) : bool :=
  existsb (fun e => neutralb e && match se_allowlist e with Some _ => true | None => false end) (effects_of s).
Definition dokumori_ok (s : skill) : bool := negb (String.eqb (sk_off_class_default s) "").
Definition thrust_ok (s : skill) : bool :=
  match get_damage_spec s (cond_modifier ["No Combo"]), get_damage_spec s (cond_modifier []) with
  | Ok (Some x), Ok (Some y) => negb (Qle_bool (potency y) (potency x))
  | _, _ => false
  end.

(** The skills of a class at version "7.1" and level 100 that pass these tests. *)
Definition nin_cases : list (string * (skill -> bool)) :=
  [("Aeolian Edge", edge_ok); ("Doton", doton_ok); ("Bunshin", bunshin_ok); ("Dokumori", dokumori_ok)].
Definition drg_cases : list (string * (skill -> bool)) := [("Heavens' Thrust", thrust_ok)].
Definition has_case (own : list skill) (nf : string * (skill -> bool)) : bool :=
  existsb (fun s => String.eqb (sk_name s) (fst nf) && snd nf s) own.
Definition cases_ok (j : string) (cases : list (string * (skill -> bool))) (x : res class_skills) : bool :=
  match x with
  | Ok cs => match cs_skills cs with
             | Ok own => String.eqb (cs_job cs) j && forallb (has_case own) cases
             | Err _ => false
             end
  | Err _ => false
  end.
Lemma nin_cases_hold : cases_ok "NIN" nin_cases (load_class (ver_rank "7.1") (lev_rank 100) nin_class) = true.
Proof. vm_compute. reflexivity. Qed.
Lemma drg_cases_hold : cases_ok "DRG" drg_cases (load_class (ver_rank "7.1") (lev_rank 100) drg_class) = true.
Proof. vm_compute. reflexivity. Qed.

Lemma class_case lib c j cases :
  create_skill_library "7.1" 100 = Ok lib -> In c (loaded_classes (ver_rank "7.1")) ->
  cases_ok j cases (load_class (ver_rank "7.1") (lev_rank 100) c) = true ->
  forall n f, In (n, f) cases -> exists s, get_skill lib n j = Ok s /\ f s = true.
Proof.
  intros C I K.
  destruct (load_class (ver_rank "7.1") (lev_rank 100) c) as [cs|] eqn:LC; [|discriminate K]. unfold cases_ok in K.
  destruct (cs_skills cs) as [own|] eqn:CS; [|discriminate K]. apply andb_true_iff in K as [J K]. apply String.eqb_eq in J.
  rewrite forallb_forall in K. destruct (library_point _ _ _ C) as (js & ps & -> & JS & _ & _ & N1 & N2 & _).
  intros n f H. specialize (K _ H). unfold has_case in K. apply existsb_exists in K as (s & Is & K).
  apply andb_true_iff in K as [E K]. apply String.eqb_eq in E. exists s. split; [|exact K].
  apply point_get; [exact N1 | exact N2|]. split; [exact E|]. exists (cs, own).
  pose proof (job_combined _ _ _ _ _ _ _ JS I LC CS) as X. apply in_combine_r in X. split; [exact X|]. split; [exact J|].
  apply in_or_app. left. apply in_or_app. left. exact Is.
Qed.
Lemma lib_case : exists lib, create_skill_library "7.1" 100 = Ok lib.
Proof. exact (proj1 (loads_iff "7.1" 100) (or_intror (conj eq_refl eq_refl))). Qed.
Lemma nin_case : exists lib, create_skill_library "7.1" 100 = Ok lib /\
  forall n f, In (n, f) nin_cases -> exists s, get_skill lib n "NIN" = Ok s /\ f s = true.
Proof.
  destruct lib_case as [lib C]. exists lib. split; [exact C|]. apply (class_case lib nin_class); [exact C| |exact nin_cases_hold].
  apply (in_loaded_classes nin_class false); [|discriminate]. apply (nth_error_In job_classes 17). reflexivity.
Qed.
Lemma drg_case : exists lib, create_skill_library "7.1" 100 = Ok lib /\
  forall n f, In (n, f) drg_cases -> exists s, get_skill lib n "DRG" = Ok s /\ f s = true.
Proof.
  destruct lib_case as [lib C]. exists lib. split; [exact C|]. apply (class_case lib drg_class); [exact C| |exact drg_cases_hold].
  apply (in_loaded_classes drg_class false); [|discriminate]. apply (nth_error_In job_classes 15). reflexivity.
Qed.

Lemma missed : has_also "No Combo" (cond_modifier ["No Combo"]) (cond_modifier []).
Proof. split; cbn; [auto | intuition congruence]. Qed.
Lemma thrust_case : exists lib s x y, create_skill_library "7.1" 100 = Ok lib /\ get_skill lib "Heavens' Thrust" "DRG" = Ok s
  /\ has_also "No Combo" (cond_modifier ["No Combo"]) (cond_modifier [])
  /\ get_damage_spec s (cond_modifier ["No Combo"]) = Ok (Some x) /\ get_damage_spec s (cond_modifier []) = Ok (Some y)
  /\ (potency x < potency y)%Q.
Proof.
  destruct drg_case as (lib & C & H). destruct (H "Heavens' Thrust" thrust_ok) as (s & G & K); [left; reflexivity|].
  unfold thrust_ok in K. destruct (get_damage_spec s (cond_modifier ["No Combo"])) as [[x|]|] eqn:A; try discriminate K.
  destruct (get_damage_spec s (cond_modifier [])) as [[y|]|] eqn:B; try discriminate K.
  exists lib, s, x, y. split; [exact C|]. split; [exact G|]. split; [exact missed|]. split; [exact A|]. split; [exact B|].
  apply Qnot_le_lt. intros L. apply Qle_bool_iff in L. rewrite L in K. discriminate K.
Qed.
Lemma edge_case : exists lib s c a r, create_skill_library "7.1" 100 = Ok lib /\ get_skill lib "Aeolian Edge" "NIN" = Ok s
  /\ In c (combos_of s) /\ In a (combo_actions c) /\ In r (changes_of s) /\ jr_clear_all r = false.
Proof.
  destruct nin_case as (lib & C & H). destruct (H "Aeolian Edge" edge_ok) as (s & G & K); [left; reflexivity|].
  unfold edge_ok in K. rewrite !andb_true_iff in K. destruct K as [[K1 K2] _].
  apply existsb_exists in K1 as (c & Ic & K1). destruct (combo_actions c) as [|a l] eqn:A; [discriminate K1|].
  apply existsb_exists in K2 as (r & Ir & K2). apply negb_true_iff in K2.
  exists lib, s, c, a, r. rewrite A. split; [exact C|]. split; [exact G|]. split; [exact Ic|]. split; [left; reflexivity|]. split; assumption.
Qed.
Lemma edge_press : exists lib s q, create_skill_library "7.1" 100 = Ok lib /\ get_skill lib "Aeolian Edge" "NIN" = Ok s
  /\ has_also "No Combo" (cond_modifier ["No Combo"]) (cond_modifier [])
  /\ press_potency s (cond_modifier ["No Combo"]) q.
Proof.
  destruct nin_case as (lib & C & H). destruct (H "Aeolian Edge" edge_ok) as (s & G & K); [left; reflexivity|].
  unfold edge_ok in K. rewrite !andb_true_iff in K. destruct K as [_ K].
  destruct (get_follow_up_skills s (cond_modifier ["No Combo"])) as [fs|] eqn:F; [|discriminate K].
  destruct (shipped_lookups _ _ _ _ _ s s (cond_modifier ["No Combo"]) C G (part_self s)) as [((d & D) & _) _].
  { repeat constructor. intros []. }
  destruct (worth_spec _ _ _ _ _ s s _ fs (match d with Some x => potency x | None => 0%Q end) C G (part_self s) F)
    as (qs & Q & _).
  exists lib, s, (fold_right Qplus (match d with Some x => potency x | None => 0%Q end) qs).
  split; [exact C|]. split; [exact G|]. split; [exact missed|].
  exists (match d with Some x => potency x | None => 0%Q end), fs, qs. split; [exists d; split; [exact D | reflexivity]|].
  split; [exact F|]. split; [exact Q | reflexivity].
Qed.
Lemma doton_case : exists lib s fu d, create_skill_library "7.1" 100 = Ok lib /\ get_skill lib "Doton" "NIN" = Ok s
  /\ In fu (follow_ups_of s) /\ fu_dot fu = Some d.
Proof.
  destruct nin_case as (lib & C & H). destruct (H "Doton" doton_ok) as (s & G & K); [right; left; reflexivity|].
  apply existsb_exists in K as (fu & I & K). destruct (fu_dot fu) as [d|] eqn:D; [|discriminate K].
  exists lib, s, fu, d. split; [exact C|]. split; [exact G|]. split; [exact I | exact D].
Qed.
Lemma bunshin_case : exists lib s e al, create_skill_library "7.1" 100 = Ok lib /\ get_skill lib "Bunshin" "NIN" = Ok s
  /\ sk_name s = "Bunshin" /\ In e (effects_of s) /\ se_allowlist e = Some al /\ only_a_condition e
  /\ ~ no_target "NIN" "Bunshin" /\ ~ no_reader "NIN" "Bunshin".
Proof.
  destruct nin_case as (lib & C & H). destruct (H "Bunshin" bunshin_ok) as (s & G & K); [right; right; left; reflexivity|].
  apply existsb_exists in K as (e & I & K). apply andb_true_iff in K as [N K].
  destruct (se_allowlist e) as [al|] eqn:A; [|discriminate K]. exists lib, s, e, al.
  split; [exact C|]. split; [exact G|]. split; [exact (shipped_name _ _ _ _ _ _ C G)|]. split; [exact I|].
  split; [exact A|]. split; [apply neutralb_sound, N|].
  clear. unfold no_target, no_reader. cbn. split; intuition congruence.
Qed.
Lemma dokumori_case : exists lib s, create_skill_library "7.1" 100 = Ok lib /\ get_skill lib "Dokumori" "NIN" = Ok s
  /\ sk_off_class_default s <> "".
Proof.
  destruct nin_case as (lib & C & H). destruct (H "Dokumori" dokumori_ok) as (s & G & K); [do 3 right; left; reflexivity|].
  exists lib, s. split; [exact C|]. split; [exact G|]. apply negb_true_iff, String.eqb_neq in K. exact K.
Qed.
