(** * What create_skill_library puts into the library *)

From Coq Require Import ZArith QArith List String Bool Lia.
From Verif Require Import Base BaseFacts Strings Types Library LibraryFacts Py GameLib.
Import ListNotations.
Open Scope string_scope.
Open Scope Z_scope.

(** ** Dicts *)

Lemma dget_notin {V} k (d : dict V) : ~ In k (map fst d) -> dget k d = None.
Proof.
  induction d as [|[k' v] d IH]; cbn; [reflexivity|]. intros H.
  destruct (String.eqb_spec k k') as [->|N]; [exfalso; auto | auto].
Qed.
Lemma dset_new {V} k (v : V) d : ~ In k (map fst d) -> dset k v d = (d ++ [(k, v)])%list.
Proof.
  induction d as [|[k' v'] d IH]; cbn; [reflexivity|]. intros H.
  destruct (String.eqb_spec k k') as [->|N]; [exfalso; auto|]. rewrite IH; auto.
Qed.
Lemma dget_mid {V} k (v : V) d1 d2 : ~ In k (map fst d1) -> dget k (d1 ++ (k, v) :: d2)%list = Some v.
Proof.
  induction d1 as [|[k' v'] d IH]; cbn; intros H.
  - rewrite String.eqb_refl. reflexivity.
  - destruct (String.eqb_spec k k') as [->|N]; [exfalso; auto | auto].
Qed.
Lemma dset_mid {V} k (v w : V) d1 d2 :
  ~ In k (map fst d1) -> dset k w (d1 ++ (k, v) :: d2)%list = (d1 ++ (k, w) :: d2)%list.
Proof.
  induction d1 as [|[k' v'] d IH]; cbn; intros H.
  - rewrite String.eqb_refl. reflexivity.
  - destruct (String.eqb_spec k k') as [->|N]; [exfalso; auto|]. rewrite IH; auto.
Qed.

(** ** Adding skills to the current job *)

Definition pairs (l : list skill) : dict skill := map (fun s => (sk_name s, s)) l.
Lemma pairs_names l : map fst (pairs l) = map sk_name l.
Proof. unfold pairs. rewrite map_map. reflexivity. Qed.
Lemma pairs_app a b : pairs (a ++ b) = (pairs a ++ pairs b)%list.
Proof. apply map_app. Qed.

Definition with_skills (l : library) (d : dict (dict skill)) : library :=
  mkLib d (lib_priority l) (lib_resources l) (lib_breakers l) (lib_current l) (lib_version l) (lib_level l).

Lemma add_skills_pairs sks : forall l j d1 d2 have,
  lib_current l = Some j -> lib_skills l = (d1 ++ (j, pairs have) :: d2)%list -> ~ In j (map fst d1) ->
  NoDup (map sk_name (have ++ sks)) ->
  foldM add_skill sks l = Ok (with_skills l (d1 ++ (j, pairs (have ++ sks)) :: d2)%list).
Proof.
  induction sks as [|s sks IH]; intros l j d1 d2 have C S N D; cbn [foldM].
  - rewrite app_nil_r. unfold with_skills. rewrite <- S. destruct l; reflexivity.
  - unfold add_skill at 1. unfold at_current. rewrite C. cbn [of_option bind]. rewrite S, dget_mid by exact N.
    cbn [of_option bind].
    assert (F : ~ In (sk_name s) (map fst (pairs have))).
    { rewrite pairs_names. rewrite map_app in D. cbn [map] in D. apply NoDup_remove_2 in D.
      intros I. apply D. apply in_or_app. auto. }
    unfold dmem. rewrite dget_notin by exact F. cbn [bind]. rewrite (dset_new (sk_name s) s (pairs have)) by exact F.
    rewrite dset_mid by exact N.
    replace (pairs have ++ [(sk_name s, s)])%list with (pairs (have ++ [s])) by (rewrite pairs_app; reflexivity).
    rewrite (IH _ j d1 d2 (have ++ [s])%list); cbn; auto.
    + rewrite <- app_assoc. unfold with_skills. cbn. rewrite C. reflexivity.
    + rewrite <- app_assoc. exact D.
Qed.

(** ** The explicit library *)

Definition loaded_job := (class_skills * list skill)%type.
Definition lj_job (x : loaded_job) : string := cs_job (fst x).

Definition set_resources (rs : list (string * jr_settings)) : dict jr_settings :=
  fold_left (fun d nr => dset (fst nr) (snd nr) d) rs [].
Definition set_breakers (bs : option (list (Z * list Z))) : zdict (list Z) :=
  match bs with Some b => fold_left (fun d gb => zset (fst gb) (snd gb) d) b [] | None => [] end.
Definition set_priority (p : option (list string)) : list string :=
  match p with Some p => p | None => [] end.

Definition lib_of (v : string) (lv : Z) (js : list loaded_job) (more : string -> list skill)
    (cur : option string) : library :=
  mkLib (map (fun x => (lj_job x, pairs (snd x ++ more (lj_job x)))) js)
    (map (fun x => (lj_job x, set_priority (cs_priority (fst x)))) js)
    (map (fun x => (lj_job x, set_resources (cs_resources (fst x)))) js)
    (map (fun x => (lj_job x, set_breakers (cs_breakers (fst x)))) js)
    cur v lv.

Lemma keys_of {V} (g : loaded_job -> V) js : map fst (map (fun x => (lj_job x, g x)) js) = map lj_job js.
Proof. rewrite map_map. reflexivity. Qed.

Lemma setdefault_new {V} k (v : V) d : ~ In k (map fst d) -> setdefault k v d = (d ++ [(k, v)])%list.
Proof. intros H. unfold setdefault, dmem. rewrite dget_notin by exact H. apply dset_new, H. Qed.
Lemma setdefault_old {V} k (v : V) d : In k (map fst d) -> setdefault k v d = d.
Proof. intros H. unfold setdefault. rewrite (proj2 (dmem_spec k d)); [reflexivity | exact H]. Qed.

(** Loading one more job. *)
Lemma add_breakers_end bs : forall l j d b,
  lib_current l = Some j -> lib_breakers l = (d ++ [(j, b)])%list -> ~ In j (map fst d) ->
  foldM (fun l gb => add_combo_breaker l (fst gb) (snd gb)) bs l
  = Ok (mkLib (lib_skills l) (lib_priority l) (lib_resources l)
          (d ++ [(j, fold_left (fun d gb => zset (fst gb) (snd gb) d) bs b)])%list
          (lib_current l) (lib_version l) (lib_level l)).
Proof.
  induction bs as [|[g x] bs IH]; intros l j d b C B N; cbn [foldM fold_left].
  - rewrite <- B. destruct l; reflexivity.
  - unfold add_combo_breaker at 1, at_current. rewrite C, B. cbn [of_option bind].
    rewrite dget_mid by exact N. cbn [of_option bind fst snd]. rewrite dset_mid by exact N.
    rewrite (IH _ j d (zset g x b)); cbn; auto.
Qed.
Lemma add_resources_end rs : forall l j d b,
  lib_current l = Some j -> lib_resources l = (d ++ [(j, b)])%list -> ~ In j (map fst d) ->
  foldM (fun l nr => lib_add_resource l (fst nr) (snd nr)) rs l
  = Ok (mkLib (lib_skills l) (lib_priority l)
          (d ++ [(j, fold_left (fun d nr => dset (fst nr) (snd nr) d) rs b)])%list
          (lib_breakers l) (lib_current l) (lib_version l) (lib_level l)).
Proof.
  induction rs as [|[g x] bs IH]; intros l j d b C B N; cbn [foldM fold_left].
  - rewrite <- B. destruct l; reflexivity.
  - unfold lib_add_resource at 1, at_current. rewrite C, B. cbn [of_option bind].
    rewrite dget_mid by exact N. cbn [of_option bind fst snd]. rewrite dset_mid by exact N.
    rewrite (IH _ j d (dset g x b)); cbn; auto.
Qed.

(** The skills a class contributes: none if get_skills raises ValueError. *)
Definition class_list (cs : class_skills) : res (list skill) :=
  match cs_skills cs with Err ValueError => Ok [] | x => x end.

Definition no_more : string -> list skill := fun _ => [].

Lemma add_class_end v lv js cs sks cur :
  class_list cs = Ok sks -> NoDup (map sk_name sks) -> ~ In (cs_job cs) (map lj_job js) ->
  add_all_skills_from (lib_of v lv js no_more cur) cs
  = Ok (lib_of v lv (js ++ [(cs, sks)]) no_more (Some (cs_job cs))).
Proof.
  intros S D N. unfold add_all_skills_from, lib_of, set_current_job_class.
  cbn [lib_skills lib_priority lib_resources lib_breakers lib_version lib_level].
  rewrite !setdefault_new by (rewrite keys_of; exact N).
  set (sk := map _ js). set (pr := map _ js). set (rs := map _ js). set (br := map _ js).
  assert (Nsk : ~ In (cs_job cs) (map fst sk)) by (unfold sk; rewrite keys_of; exact N).
  assert (Npr : ~ In (cs_job cs) (map fst pr)) by (unfold pr; rewrite keys_of; exact N).
  assert (Nrs : ~ In (cs_job cs) (map fst rs)) by (unfold rs; rewrite keys_of; exact N).
  assert (Nbr : ~ In (cs_job cs) (map fst br)) by (unfold br; rewrite keys_of; exact N).
  match goal with |- bind ?m _ = _ =>
    replace m with (Ok (mkLib (sk ++ [(cs_job cs, [])]) (pr ++ [(cs_job cs, set_priority (cs_priority cs))])
                          (rs ++ [(cs_job cs, [])]) (br ++ [(cs_job cs, [])]) (Some (cs_job cs)) v lv)%list)
  end.
  2:{ destruct (cs_priority cs); [|reflexivity]. cbn. rewrite dset_mid by exact Npr. reflexivity. }
  cbn [bind].
  match goal with |- bind ?m _ = _ =>
    replace m with (Ok (mkLib (sk ++ [(cs_job cs, [])]) (pr ++ [(cs_job cs, set_priority (cs_priority cs))])
                          (rs ++ [(cs_job cs, [])]) (br ++ [(cs_job cs, set_breakers (cs_breakers cs))])
                          (Some (cs_job cs)) v lv)%list)
  end.
  2:{ destruct (cs_breakers cs); [|reflexivity]. erewrite add_breakers_end; cbn; eauto. }
  cbn [bind].
  assert (AC : forall l, add_class_skills l (cs_skills cs) = foldM add_skill sks l).
  { intros l. unfold class_list in S. unfold add_class_skills.
    destruct (cs_skills cs) as [x|e]; [congruence|]. destruct e; try discriminate.
    injection S as <-. reflexivity. }
  rewrite AC.
  erewrite add_skills_pairs with (have := []); cbn [lib_current lib_skills app]; eauto.
  cbn [bind with_skills lib_priority lib_resources lib_breakers lib_current lib_version lib_level].
  erewrite add_resources_end; cbn; eauto.
  unfold sk, pr, rs, br. rewrite !map_app. cbn. rewrite app_nil_r. reflexivity.
Qed.

Definition well_loaded (x : loaded_job) : Prop :=
  class_list (fst x) = Ok (snd x) /\ NoDup (map sk_name (snd x)).
Definition last_job (js : list loaded_job) (cur : option string) : option string :=
  fold_left (fun _ x => Some (lj_job x)) js cur.

Lemma add_classes_end v lv more : forall js cur,
  (forall x, In x more -> well_loaded x) -> NoDup (map lj_job (js ++ more)) ->
  foldM (fun l x => add_all_skills_from l (fst x)) more (lib_of v lv js no_more cur)
  = Ok (lib_of v lv (js ++ more) no_more (last_job more cur)).
Proof.
  induction more as [|[cs sks] more IH]; intros js cur W D; cbn [foldM].
  - rewrite app_nil_r. reflexivity.
  - destruct (W (cs, sks) (or_introl eq_refl)) as [S N]. cbn [fst snd] in S, N.
    cbn [fst]. rewrite (add_class_end v lv js cs sks cur S N).
    + cbn [bind]. rewrite IH.
      * rewrite <- app_assoc. reflexivity.
      * intros x I. apply W. right. exact I.
      * rewrite <- app_assoc. exact D.
    + rewrite map_app in D. cbn [map] in D. apply NoDup_remove_2 in D.
      intros I. apply D. apply in_or_app. auto.
Qed.

(** Adding skills to one of the jobs. *)
Lemma lib_of_ext v lv js f g cur :
  (forall x, In x js -> f (lj_job x) = g (lj_job x)) -> lib_of v lv js f cur = lib_of v lv js g cur.
Proof.
  intros H. unfold lib_of. f_equal. apply map_ext_in. intros x I. rewrite (H x I). reflexivity.
Qed.
Lemma in_split_first {A B} (f : A -> B) (x : A) l :
  In x l -> NoDup (map f l) -> exists l1 l2, l = (l1 ++ x :: l2)%list /\ ~ In (f x) (map f l1) /\ ~ In (f x) (map f l2).
Proof.
  intros I D. destruct (in_split _ _ I) as (l1 & l2 & ->). exists l1, l2. split; [reflexivity|].
  rewrite map_app in D. cbn [map] in D. apply NoDup_remove_2 in D.
  split; intros H; apply D; apply in_or_app; auto.
Qed.
Lemma add_to_job_of v lv js f cur x extra :
  In x js -> NoDup (map lj_job js) ->
  NoDup (map sk_name ((snd x ++ f (lj_job x)) ++ extra)) ->
  add_to_job (lib_of v lv js f cur) (lj_job x) (Ok extra)
  = Ok (lib_of v lv js (fun k => if String.eqb k (lj_job x) then (f k ++ extra)%list else f k) (Some (lj_job x))).
Proof.
  intros I D N. unfold add_to_job. cbn [bind].
  assert (M : In (lj_job x) (map lj_job js)) by (apply in_map, I).
  unfold set_current_job_class, lib_of. cbn [lib_skills lib_priority lib_resources lib_breakers lib_version lib_level].
  rewrite !setdefault_old by (rewrite keys_of; exact M).
  destruct (in_split_first lj_job x js I D) as (l1 & l2 & -> & N1 & N2).
  rewrite (add_skills_pairs extra _ (lj_job x)
    (map (fun x => (lj_job x, pairs (snd x ++ f (lj_job x)))) l1)
    (map (fun x => (lj_job x, pairs (snd x ++ f (lj_job x)))) l2)
    (snd x ++ f (lj_job x))%list);
    [| reflexivity | cbn [lib_skills]; rewrite map_app; reflexivity | rewrite keys_of; exact N1 | exact N].
  unfold with_skills. cbn [lib_priority lib_resources lib_breakers lib_current lib_version lib_level].
  f_equal. f_equal. rewrite (map_app _ l1). cbn [map]. rewrite String.eqb_refl, app_assoc.
  f_equal; [|f_equal]; apply map_ext_in; intros y J; (destruct (String.eqb_spec (lj_job y) (lj_job x)) as [E|E];
    [exfalso; first [apply N1; rewrite <- E; apply in_map; exact J | apply N2; rewrite <- E; apply in_map; exact J]|reflexivity]).
Qed.

Lemma add_to_jobs_of v lv js (extra : string -> res (list skill)) (ex : string -> list skill) todo :
  NoDup (map lj_job js) -> (forall x, In x todo -> In x js) -> NoDup (map lj_job todo) ->
  (forall x, In x todo -> extra (lj_job x) = Ok (ex (lj_job x))) ->
  forall f cur,
  (forall x, In x todo -> NoDup (map sk_name ((snd x ++ f (lj_job x)) ++ ex (lj_job x)))) ->
  foldM (fun lib j => add_to_job lib j (extra j)) (map lj_job todo) (lib_of v lv js f cur)
  = Ok (lib_of v lv js (fun k => if smem k (map lj_job todo) then (f k ++ ex k)%list else f k) (last_job todo cur)).
Proof.
  intros D. induction todo as [|x todo IH]; intros Sub Nd Ex f cur N; cbn [map foldM].
  - reflexivity.
  - rewrite (Ex x (or_introl eq_refl)).
    rewrite (add_to_job_of v lv js f cur x); [|apply Sub; left; reflexivity | exact D | apply N; left; reflexivity].
    cbn [bind]. cbn [map] in Nd. apply NoDup_cons_iff in Nd as [Nx Nd].
    rewrite IH.
    + unfold last_job. cbn [fold_left]. f_equal. apply lib_of_ext. intros y Iy. cbn [smem existsb].
      destruct (String.eqb_spec (lj_job y) (lj_job x)) as [E|E].
      * rewrite E. cbn [orb].
        destruct (existsb (String.eqb (lj_job x)) (map lj_job todo)) eqn:M.
        -- exfalso. apply Nx. apply existsb_exists in M as (k & Ik & Ek). apply String.eqb_eq in Ek. subst k. exact Ik.
        -- unfold smem. rewrite M. reflexivity.
      * cbn [orb]. reflexivity.
    + intros y I. apply Sub. right. exact I.
    + exact Nd.
    + intros y I. apply Ex. right. exact I.
    + intros y I. destruct (String.eqb_spec (lj_job y) (lj_job x)) as [E|E].
      * exfalso. apply Nx. rewrite <- E. apply in_map. exact I.
      * apply N. right. exact I.
Qed.
