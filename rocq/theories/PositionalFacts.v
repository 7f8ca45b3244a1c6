(** * Positional inference *)

From Coq Require Import ZArith QArith List String Ascii Bool Lia.
From Verif Require Import Base BaseFacts Float Strings Types Lookup SpecCond CondFacts AoeFacts SpecPositional.
Import ListNotations.
Open Scope string_scope.
Open Scope Z_scope.
Local Opaque fl.

(** ** The table of variants *)

Lemma first_damage_spec l :
  match first_damage l with
  | None => forall fu, In fu l -> sk_damage (fu_skill fu) = CNone
  | Some e => exists pre fu post, l = (pre ++ fu :: post)%list /\ (forall f, In f pre -> sk_damage (fu_skill f) = CNone)
      /\ (match e with Some sp => sk_damage (fu_skill fu) = COne sp | None => exists x, sk_damage (fu_skill fu) = CDict x end)
  end.
Proof.
  induction l as [|fu l IH]; cbn [first_damage]; [intros fu []|].
  destruct (sk_damage (fu_skill fu)) as [|sp|x] eqn:E.
  - destruct (first_damage l) as [e|].
    + destruct IH as (pre & f & post & -> & N & D). exists (fu :: pre), f, post.
      split; [reflexivity|]. split; [|exact D]. intros g [<-|Hg]; auto.
    + intros g [<-|Hg]; auto.
  - exists [], fu, l. split; [reflexivity|]. split; [intros g [] | exact E].
  - exists [], fu, l. split; [reflexivity|]. split; [intros g [] | eauto].
Qed.
Lemma follow_up_table_spec d : follow_up_variants d (follow_up_table d).
Proof.
  induction d as [|(k & l) d IH]; cbn [follow_up_table]; [constructor|].
  pose proof (first_damage_spec l) as H. destruct (first_damage l) as [e|].
  - destruct H as (pre & fu & post & -> & N & D). destruct e as [sp|].
    + apply fv_spec; assumption.
    + destruct D as (x & D). eapply fv_table; eassumption.
  - apply fv_harmless; assumption.
Qed.
Lemma first_damage_none l : (forall fu, In fu l -> sk_damage (fu_skill fu) = CNone) -> first_damage l = None.
Proof.
  induction l as [|fu l IH]; intros H; cbn [first_damage]; [reflexivity|].
  rewrite (H fu (or_introl eq_refl)). apply IH. intros f Hf. apply H. right; exact Hf.
Qed.
Lemma first_damage_app pre l : (forall fu, In fu pre -> sk_damage (fu_skill fu) = CNone) ->
  first_damage (pre ++ l)%list = first_damage l.
Proof.
  induction pre as [|fu pre IH]; intros H; cbn [first_damage app]; [reflexivity|].
  rewrite (H fu (or_introl eq_refl)). apply IH. intros f Hf. apply H. right; exact Hf.
Qed.
Lemma follow_up_variants_fun d t : follow_up_variants d t -> t = follow_up_table d.
Proof.
  induction 1 as [|k l d t N _ ->|k pre fu post sp d t N D _ ->|k pre fu post x d t N D _ ->]; cbn [follow_up_table].
  - reflexivity.
  - rewrite first_damage_none by exact N. reflexivity.
  - rewrite first_damage_app by exact N. cbn [first_damage]. rewrite D. reflexivity.
  - rewrite first_damage_app by exact N. cbn [first_damage]. rewrite D. reflexivity.
Qed.
Lemma positional_table_spec s t : positional_table s = Some t <-> variants s t.
Proof.
  unfold positional_table, variants. destruct (sk_damage s) as [|sp|d] eqn:E.
  3: { split; [intros H; injection H as ->; left; reflexivity | intros [H|(H & _)]; [congruence|]].
       exfalso. apply (H d). reflexivity. }
  1, 2: destruct (sk_follow_ups s) as [l|d]; split;
    [ discriminate
    | intros [H|(_ & _ & d & H & _)]; discriminate
    | intros H; right; split; [congruence|]; destruct (follow_up_table d) as [|x l] eqn:T; [discriminate|];
      injection H as <-; split; [discriminate|]; exists d; split; [reflexivity|]; rewrite <- T; apply follow_up_table_spec
    | intros [H|(_ & N & d' & H & V)]; [discriminate|]; injection H as <-; apply follow_up_variants_fun in V;
      rewrite <- V; destruct t; [congruence | reflexivity] ].
Qed.
Lemma variants_fun s t t' : variants s t -> variants s t' -> t = t'.
Proof. rewrite <- !positional_table_spec. congruence. Qed.

Lemma missed_spec s t : positional_table s = Some t ->
  existsb (fun kv => smem "No Positional" (fst kv)) t = true <-> has_positional s.
Proof.
  intros T. apply positional_table_spec in T. rewrite existsb_exists. split.
  - intros ((k & v) & I & M). exists t, k, v. split; [exact T|]. split; [exact I|]. apply smem_spec, M.
  - intros (t' & k & v & V & I & M). rewrite (variants_fun s t' t V T) in I.
    exists (k, v). split; [exact I|]. apply smem_spec, M.
Qed.

(** ** Selection *)

Lemma in_force_spec t active sp : NoDup active -> distinct_sets (map fst t) ->
  table_spec t active = Ok sp <-> in_force t active sp.
Proof.
  intros N D. unfold table_spec, in_force.
  destruct (clookup_spec t active N D) as [(k & v & I & B & ->)|(F & ->)]; cbn [bind].
  - destruct v as [v|]; cbn [of_option].
    + split.
      * intros H; injection H as <-. left. eauto.
      * intros [(k' & I' & B')|(H & _)].
        -- rewrite (best_key_fun _ _ _ _ B' B) in I'. apply (in_cget _ _ _ D) in I. apply (in_cget _ _ _ D) in I'. congruence.
        -- exfalso. apply (H k); [apply (best_key_in _ _ _ B) | destruct B as (b & a & _ & Hi & _); exact Hi].
    + split; [discriminate|]. intros [(k' & I' & B')|(H & _)].
      * rewrite (best_key_fun _ _ _ _ B' B) in I'. apply (in_cget _ _ _ D) in I. apply (in_cget _ _ _ D) in I'. congruence.
      * exfalso. destruct B as (b & a & E & Hi & _). apply (H k); [rewrite E; apply in_app_iff; right; left; reflexivity | exact Hi].
  - destruct (cget [""] t) as [v|] eqn:C; cbn [of_option bind].
    + pose proof (cget_in _ _ _ C) as (k & I & S). split.
      * destruct v as [v|]; cbn [of_option]; [|discriminate]. intros H; injection H as <-. right. eauto.
      * intros [(k' & I' & B')|(_ & k' & I' & S')].
        -- exfalso. destruct B' as (b & a & E & Hi & _). apply (F k'); [rewrite E; apply in_app_iff; right; left; reflexivity | exact Hi].
        -- assert (Ek : cget [""] t = cget k' t).
           { clear -S'. induction t as [|(k0 & v0) t IH]; cbn [cget]; [reflexivity|].
             replace (cond_eqb [""] k0) with (cond_eqb k' k0); [destruct (cond_eqb k' k0); auto|].
             apply Bool.eq_true_iff_eq. rewrite !cond_eqb_spec. split; intros H x.
             - rewrite <- (H x). apply S'. - rewrite <- (H x). symmetry. apply S'. }
           rewrite (in_cget k' (Some sp) t D I') in Ek. rewrite Ek in C. injection C as <-. reflexivity.
    + split; [discriminate|]. intros [(k' & I' & B')|(_ & k' & I' & S')].
      * exfalso. destruct B' as (b & a & E & Hi & _). apply (F k'); [rewrite E; apply in_app_iff; right; left; reflexivity | exact Hi].
      * exfalso. pose proof (proj1 (cget_none [""] t) C) as X. apply (X k'); [apply in_map_iff; exists (k', Some sp); auto | exact S'].
Qed.

(** ** Strings *)

Lemma join_concat l : join "," l = String.concat "," l.
Proof. induction l as [|x [|y l] IH]; [reflexivity..|]. rewrite concat_cons2, <- IH. reflexivity. Qed.
Lemma canonicalize_join_tight l :
  (forall x, In x l -> plain_name x) -> forall x, In x (canonicalize (join "," l)) <-> In x l.
Proof.
  intros H x. rewrite join_concat. destruct l as [|p l]; [reflexivity|].
  rewrite canonicalize_denotes.
  - split.
    + intros (y & I & T). apply strip_iff in T. rewrite strip_id in T by apply H, I. subst. exact I.
    + intros I. exists x. split; [exact I|]. apply strip_iff, strip_id, H, I.
  - discriminate.
  - intros y Hy. apply H, Hy.
  - destruct (H p (or_introl eq_refl)) as (_ & _ & N). destruct l as [|y l]; [cbn; exact N|].
    rewrite concat_cons2. destruct p; [congruence | discriminate].
Qed.
Lemma trimmed_strip x : strip x = x -> trimmed x.
Proof. intros H. apply strip_iff in H as (a & b & _ & _ & _ & T). exact T. Qed.
Lemma np_plain : plain_name "No Positional".
Proof.
  split; [intros H; vm_compute in H; repeat (destruct H as [H|H]; [discriminate H|]); destruct H|].
  split; [apply trimmed_strip; vm_compute; reflexivity | discriminate].
Qed.
Lemma nc_plain : plain_name "No Combo".
Proof.
  split; [intros H; vm_compute in H; repeat (destruct H as [H|H]; [discriminate H|]); destruct H|].
  split; [apply trimmed_strip; vm_compute; reflexivity | discriminate].
Qed.

(** ** The modifiers tried *)

Lemma removed_in l m x : In x (sm_cond (fold_left remove_from_condition l m)) <-> In x (sm_cond m) /\ ~ In x l.
Proof.
  revert m; induction l as [|y l IH]; intros m; cbn [fold_left]; [cbn; tauto|].
  rewrite IH. cbn [remove_from_condition set_cond sm_cond]. rewrite sremove_in. cbn. intuition congruence.
Qed.
Lemma removed_nodup l m : NoDup (sm_cond m) -> NoDup (sm_cond (fold_left remove_from_condition l m)).
Proof.
  revert m; induction l as [|y l IH]; intros m N; cbn [fold_left]; [exact N|].
  apply IH. cbn [remove_from_condition set_cond sm_cond]. unfold sremove. apply NoDup_filter, N.
Qed.
Definition kept (s : skill) (m : modifier) : modifier := fold_left remove_from_condition (sk_ignored_conditions s) m.
Lemma kept_active s m : NoDup (sm_cond m) -> active_with s m [] (sm_cond (kept s m)).
Proof.
  intros N. split; [apply removed_nodup, N|]. intros x. unfold kept, counted. rewrite removed_in. cbn. tauto.
Qed.
Lemma added_active s m c extra : NoDup (sm_cond m) -> (forall x, In x (canonicalize c) <-> In x extra) ->
  active_with s m extra (sm_cond (add_to_condition (kept s m) c)).
Proof.
  intros N E. destruct (kept_active s m N) as (N' & A). split; [apply add_to_condition_nodup, N'|].
  intros x. rewrite add_to_condition_in, A, E. cbn. tauto.
Qed.
Definition candidates (s : skill) (m : modifier) : list (list string * modifier) :=
  [([], kept s m); (["No Positional"], add_to_condition (kept s m) "No Positional");
   (["No Combo"], add_to_condition (kept s m) "No Combo");
   (["No Combo"; "No Positional"], add_to_condition (kept s m) "No Combo, No Positional")].
Lemma candidates_active s m e m' : NoDup (sm_cond m) -> In (e, m') (candidates s m) -> active_with s m e (sm_cond m').
Proof.
  intros N [E|[E|[E|[E|[]]]]]; pose proof (f_equal fst E) as E1; pose proof (f_equal snd E) as E2;
    cbn [fst snd] in E1, E2; subst e m'; clear E.
  - apply kept_active, N.
  - apply added_active; [exact N|]. intros x. vm_compute. tauto.
  - apply added_active; [exact N|]. intros x. vm_compute. tauto.
  - apply added_active; [exact N|]. intros x. vm_compute. tauto.
Qed.
Lemma candidates_tried s m : map fst (candidates s m) = tried. Proof. reflexivity. Qed.

(** ** The search *)

Lemma search_spec (t : list (cond * option damage_spec)) least bonus init (l : list (list string * modifier)) :
  distinct_sets (map fst t) -> (forall p, In p l -> NoDup (sm_cond (snd p))) ->
  match positional_search t least bonus init (map snd l) with
  | Ok c => exists before e m' after, l = (before ++ (e, m') :: after)%list
      /\ c = join ", " (sm_cond (add_to_condition m' (join "," init)))
      /\ explains t least (sm_cond m') bonus
      /\ (forall p, In p before -> ~ explains t least (sm_cond (snd p)) bonus)
  | Err ValueError => forall p, In p l -> ~ explains t least (sm_cond (snd p)) bonus
  | Err _ => True
  end.
Proof.
  intros D. induction l as [|(e & m') l IH]; intros N; cbn [map positional_search snd]; [intros p []|].
  pose proof (N _ (or_introl eq_refl)) as N'. cbn [snd] in N'.
  destruct (table_spec t (sm_cond m')) as [sp|er] eqn:T; cbn [bind].
  2: { unfold table_spec in T. destruct (clookup t (sm_cond m')) as [v|er'] eqn:C; cbn [bind] in T.
       - destruct v; cbn in T; [discriminate | injection T as <-; exact I].
       - injection T as <-. unfold clookup in C.
         destruct (get_best_key_spec (map fst t) (sm_cond m') N' D) as [(_ & E)|(k & E & _)]; rewrite E in C; cbn [bind] in C;
           match type of C with of_option _ ?o = _ => destruct o; cbn in C; [discriminate | injection C as <-; exact I] end. }
  apply (in_force_spec t _ _ N' D) in T.
  unfold bonus_percent_of. destruct (Qeq_bool (potency sp) 0) eqn:Z; cbn [bind]; [exact I|].
  assert (X : explains t least (sm_cond m') bonus <-> (inject_Z (bonus_of sp least) == bonus)%Q).
  { split.
    - intros (sp' & F & _ & E). apply (in_force_spec t _ _ N' D) in F. apply (in_force_spec t _ _ N' D) in T.
      assert (sp' = sp) by congruence. subst. exact E.
    - intros E. exists sp. split; [exact T|]. split; [|exact E]. intros H. apply Qeq_bool_iff in H. congruence. }
  change (qtrunc (fdiv (fmul (inject_Z 100) (fsub (potency sp)
    match use_min_potency sp with Some u => if Qeq_bool u 0 then least else u | None => least end)) (potency sp)))
    with (bonus_of sp least).
  destruct (Qeq_bool (inject_Z (bonus_of sp least)) bonus) eqn:B.
  - exists [], e, m', l. split; [reflexivity|]. split; [reflexivity|]. split; [apply X, Qeq_bool_iff, B | intros p []].
  - assert (NE : ~ explains t least (sm_cond m') bonus).
    { rewrite X, <- Qeq_bool_iff. congruence. }
    specialize (IH (fun p Hp => N p (or_intror Hp))).
    destruct (positional_search t least bonus init (map snd l)) as [c|er].
    + destruct IH as (before & e1 & m1 & after & -> & C & E & B').
      exists ((e, m') :: before), e1, m1, after. split; [reflexivity|]. split; [exact C|]. split; [exact E|].
      intros p [<-|Hp]; [exact NE | auto].
    + destruct er; try exact I. intros p [<-|Hp]; [exact NE | auto].
Qed.

Theorem positional_inferred s m m' :
  NoDup (sm_cond m) -> (forall x, In x (sm_cond m) -> plain_name x) ->
  (forall t, variants s t -> distinct_sets (map fst t)) ->
  add_positional s m = Ok m' ->
  m' = set_cond m (sm_cond m') /\ exists extra, inferred s m extra /\ same_set (sm_cond m') (sm_cond m ++ extra)%list.
Proof.
  intros N P D E.
  assert (Hadd : forall c extra, m' = add_to_condition m c -> inferred s m extra ->
            (forall x, In x (sm_cond m) \/ In x (canonicalize c) <-> In x (sm_cond m) \/ In x extra) ->
            m' = set_cond m (sm_cond m') /\ exists extra, inferred s m extra /\ same_set (sm_cond m') (sm_cond m ++ extra)%list).
  { intros c extra -> I X. split; [apply add_to_condition_fields|]. exists extra. split; [exact I|].
    intros x. rewrite add_to_condition_in, in_app_iff. apply X. }
  assert (Hsame : m' = m -> inferred s m [] ->
            m' = set_cond m (sm_cond m') /\ exists extra, inferred s m extra /\ same_set (sm_cond m') (sm_cond m ++ extra)%list).
  { intros -> I. split; [destruct m; reflexivity|]. exists []. split; [exact I|]. intros x. rewrite app_nil_r. tauto. }
  unfold add_positional, get_positional_condition in E.
  destruct (positional_table s) as [t|] eqn:T.
  2: { injection E as <-. apply (Hadd "" []); [reflexivity| |cbn; tauto].
       apply inf_none. left. intros (t & k & v & V & _). apply positional_table_spec in V. congruence. }
  pose proof (missed_spec s t T) as M. apply positional_table_spec in T. specialize (D t T).
  destruct (existsb (fun kv => smem "No Positional" (fst kv)) t) eqn:X.
  2: { injection E as <-. eapply (Hadd _ []); [reflexivity | | intros x; rewrite canonicalize_join by exact P; cbn; tauto].
       apply inf_none. left. intros H. apply M in H. congruence. }
  pose proof (proj1 M eq_refl) as HP. destruct (sm_bonus_percent m) as [bonus|] eqn:B.
  2: { injection E as <-. eapply (Hadd _ []); [reflexivity | | intros x; rewrite canonicalize_join by exact P; cbn; tauto].
       apply inf_none. right. exact B. }
  destruct (Qeq_bool bonus 0) eqn:Z.
  - injection E as <-. eapply (Hadd _ ["No Positional"]); [reflexivity | eapply inf_missed; eauto; apply Qeq_bool_iff, Z |].
    intros x. rewrite canonicalize_join.
    + rewrite sadd_in. cbn. intuition.
    + intros y Hy. apply sadd_in in Hy as [->|Hy]; [exact np_plain | apply P, Hy].
  - assert (NZ : ~ (bonus == 0)%Q) by (rewrite <- Qeq_bool_iff; congruence).
    fold (kept s m) in E.
    pose proof (candidates_active s m ["No Combo"; "No Positional"] (add_to_condition (kept s m) "No Combo, No Positional") N
      ltac:(unfold candidates; cbn; tauto)) as AL.
    destruct (table_spec t (sm_cond (add_to_condition (kept s m) "No Combo, No Positional"))) as [low|er] eqn:L; cbn [bind] in E.
    2: { destruct er; try discriminate. unfold table_spec in L.
         destruct (clookup t _) as [v|er'] eqn:C in L; cbn [bind] in L; [destruct v; discriminate|]. injection L as ->.
         unfold clookup in C. destruct AL as (NL & _).
         destruct (get_best_key_spec (map fst t) _ NL D) as [(_ & Ek)|(k & Ek & _)]; rewrite Ek in C; cbn [bind] in C;
           match type of C with of_option _ ?o = _ => destruct o; discriminate end. }
    destruct AL as (NL & AL). apply (in_force_spec t _ _ NL D) in L.
    pose proof (search_spec t (potency low) bonus (sm_cond m) (candidates s m) D) as SS.
    cbn [map snd candidates] in SS.
    specialize (SS ltac:(intros (e & m1) Hp; cbn [snd]; apply (candidates_active s m e m1 N Hp))).
    destruct (positional_search t (potency low) bonus (sm_cond m) _) as [c|er] eqn:S in E, SS.
    + injection E as <-. destruct SS as (before & e & m1 & after & Ec & -> & Ex & Nb).
      assert (Hin : In (e, m1) (candidates s m)) by (rewrite Ec; apply in_app_iff; right; left; reflexivity).
      pose proof (candidates_active s m e m1 N Hin) as A1.
      eapply (Hadd _ e); [reflexivity | |].
      * eapply (inf_found s m bonus t _ low (map fst before) e (map fst after)); eauto.
        -- split; [exact NL | exact AL].
        -- rewrite <- (candidates_tried s m). rewrite Ec, map_app. reflexivity.
        -- intros e' He'. apply in_map_iff in He' as ((e2 & m2) & <- & H2). exists (sm_cond m2). split.
           ++ apply (candidates_active s m e2 m2 N). rewrite Ec. apply in_app_iff. left; exact H2.
           ++ apply (Nb _ H2).
      * assert (PE : forall x, In x e -> plain_name x).
        { destruct Hin as [H|[H|[H|[H|[]]]]]; injection H as <- _; intros x; cbn;
            intuition (subst; auto using np_plain, nc_plain). }
        destruct A1 as (_ & A1). intros x.
        rewrite canonicalize_join.
        -- rewrite add_to_condition_in, canonicalize_join_tight by exact P. rewrite (A1 x). unfold counted. tauto.
        -- intros y Hy. apply add_to_condition_in in Hy as [Hy|Hy].
           ++ apply A1 in Hy as [(Hy & _)|Hy]; auto.
           ++ apply (canonicalize_join_tight (sm_cond m) P) in Hy. apply P, Hy.
    + destruct er; try discriminate. injection E as <-. apply Hsame; [reflexivity|].
      eapply (inf_unexplained s m bonus t _ low); eauto.
      * split; [exact NL | exact AL].
      * intros e He. rewrite <- (candidates_tried s m) in He. apply in_map_iff in He as ((e2 & m2) & <- & H2).
        exists (sm_cond m2). split; [apply (candidates_active s m e2 m2 N H2) | apply (SS _ H2)].
Qed.

(** It never fails if every set of conditions has a variant with a potency. *)
Lemma search_total t least bonus init l :
  (forall m, In m l -> exists sp, table_spec t (sm_cond m) = Ok sp /\ ~ (potency sp == 0)%Q) ->
  match positional_search t least bonus init l with Ok _ | Err ValueError => True | Err _ => False end.
Proof.
  induction l as [|m l IH]; intros H; cbn [positional_search]; [exact I|].
  destruct (H m (or_introl eq_refl)) as (sp & -> & NZ). cbn [bind]. unfold bonus_percent_of.
  destruct (Qeq_bool (potency sp) 0) eqn:Z; [apply Qeq_bool_iff in Z; contradiction|]. cbn [bind].
  destruct (Qeq_bool _ bonus); [exact I|]. apply IH. intros m' Hm'. apply H. right; exact Hm'.
Qed.
Lemma blank_key_total t active :
  distinct_sets (map fst t) -> NoDup active ->
  (exists v, In ([], v) t) -> (forall k v, In (k, v) t -> exists sp, v = Some sp /\ ~ (potency sp == 0)%Q) ->
  exists sp, table_spec t active = Ok sp /\ ~ (potency sp == 0)%Q.
Proof.
  intros D N (v0 & H0) H. unfold table_spec.
  destruct (clookup_spec t active N D) as [(k & v & I & _ & ->)|(F & _)].
  - destruct (H k v I) as (sp & -> & NZ). cbn. eauto.
  - exfalso. apply (F []); [apply in_map_iff; exists ([], v0); auto | intros x []].
Qed.
Theorem positional_total s m :
  NoDup (sm_cond m) ->
  (forall t, variants s t -> distinct_sets (map fst t) /\ (exists v, In ([], v) t)
      /\ forall k v, In (k, v) t -> exists sp, v = Some sp /\ ~ (potency sp == 0)%Q) ->
  exists m', add_positional s m = Ok m'.
Proof.
  intros N W. unfold add_positional, get_positional_condition.
  destruct (positional_table s) as [t|] eqn:T; [|eauto].
  apply positional_table_spec in T. destruct (W t T) as (D & B & A).
  destruct (existsb (fun kv => smem "No Positional" (fst kv)) t); [|eauto]. destruct (sm_bonus_percent m) as [bonus|]; [|eauto].
  destruct (Qeq_bool bonus 0); [eauto|]. fold (kept s m).
  assert (C : forall m', In m' (map snd (candidates s m)) -> exists sp, table_spec t (sm_cond m') = Ok sp /\ ~ (potency sp == 0)%Q).
  { intros m' H. apply in_map_iff in H as ((e & m1) & <- & H). apply blank_key_total; auto.
    apply (candidates_active s m e m1 N H). }
  destruct (C (add_to_condition (kept s m) "No Combo, No Positional") ltac:(unfold candidates; cbn; tauto)) as (low & -> & _).
  cbn [bind]. pose proof (search_total t (potency low) bonus (sm_cond m) _ C) as S.
  unfold candidates in S. cbn [map snd] in S.
  destruct (positional_search _ _ _ _ _) as [c|er]; [eauto|]. destruct er; try contradiction. eauto.
Qed.

(** No condition is ever removed, whatever its name. *)
Theorem positional_keeps s m m' : add_positional s m = Ok m' ->
  m' = set_cond m (sm_cond m') /\ incl (sm_cond m) (sm_cond m').
Proof.
  unfold add_positional. destruct (get_positional_condition s m) as [c|[]]; try discriminate; intros E; injection E as <-.
  - split; [apply add_to_condition_fields|]. intros x Hx. apply add_to_condition_in. left; exact Hx.
  - split; [destruct m; reflexivity | intros x Hx; exact Hx].
Qed.
