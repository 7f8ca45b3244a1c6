(** * The library refines its specification *)

From Coq Require Import ZArith List String Bool Lia.
From Verif Require Import Base BaseFacts Strings Types Library SpecLibrary.
Import ListNotations.
Open Scope string_scope.
Open Scope Z_scope.

(** The modelled calls. *)
Definition lib_apply (l : library) (op : lib_op) : res library :=
  match op with
  | SelectJob j => Ok (set_current_job_class l j)
  | AddSkill s => add_skill l s
  | AddResource n r => lib_add_resource l n r
  | AddBreaker g b => add_combo_breaker l g b
  | SetPriority p => set_status_effect_priority l p
  end.
(** A call that raises is caught by the caller; no modelled call mutates before raising. *)
Definition lib_step (l : library) (op : lib_op) : library :=
  match lib_apply l op with Ok l' => l' | Err _ => l end.
Definition lib_run (v : string) (lvl : Z) (ops : list lib_op) : library :=
  fold_left lib_step ops (lib_init v lvl).

Definition rel_dict {V A} (dflt : A) (proj : V -> A) (sel : string -> bool) (d : dict V) (f : string -> A) : Prop :=
  forall j, match dget j d with
            | Some v => sel j = true /\ proj v = f j
            | None => sel j = false /\ f j = dflt
            end.

Record lib_rel (l : library) (a : lib_spec) : Prop := {
  rel_cur : lib_current l = current a;
  rel_cur_sel : forall j, current a = Some j -> selected a j = true;
  rel_sel : forall j, dmem j (lib_skills l) = selected a j;
  rel_sel_p : forall j, dmem j (lib_priority l) = selected a j;
  rel_sel_r : forall j, dmem j (lib_resources l) = selected a j;
  rel_sel_b : forall j, dmem j (lib_breakers l) = selected a j;
  rel_unsel : forall j, selected a j = false ->
     (forall n, skill_at a j n = None /\ resource_at a j n = None) /\ (forall g, breaker_at a j g = None)
     /\ priority_of a j = [];
  rel_sk : forall j d, dget j (lib_skills l) = Some d -> forall n, dget n d = skill_at a j n;
  rel_rs : forall j d, dget j (lib_resources l) = Some d -> forall n, dget n d = resource_at a j n;
  rel_br : forall j d, dget j (lib_breakers l) = Some d -> forall g, zget g d = breaker_at a j g;
  rel_pr : forall j d, dget j (lib_priority l) = Some d -> d = priority_of a j
}.

Lemma lib_rel_init v lvl : lib_rel (lib_init v lvl) spec_init.
Proof. constructor; cbn; try reflexivity; try discriminate; auto. Qed.

Lemma dmem_dset {V} k k' (v : V) d : dmem k (dset k' v d) = (String.eqb k k' || dmem k d)%bool.
Proof. unfold dmem. rewrite dget_dset. destruct (String.eqb k k'); reflexivity. Qed.
Lemma dmem_setdefault {V} k k' (v : V) d : dmem k (setdefault k' v d) = (String.eqb k k' || dmem k d)%bool.
Proof.
  unfold setdefault. destruct (dmem k' d) eqn:E; [|apply dmem_dset].
  destruct (String.eqb_spec k k') as [->|N]; [rewrite E|]; reflexivity.
Qed.
Lemma dget_setdefault {V} k k' (v : V) d :
  dget k (setdefault k' v d)
  = match dget k d with Some x => Some x | None => if String.eqb k k' then Some v else None end.
Proof.
  unfold setdefault, dmem. destruct (dget k' d) eqn:E.
  - destruct (String.eqb_spec k k') as [->|N]; [rewrite E; reflexivity | destruct (dget k d); reflexivity].
  - rewrite dget_dset. destruct (String.eqb_spec k k') as [->|N]; [rewrite E; reflexivity|].
    destruct (dget k d); reflexivity.
Qed.

Ltac at_cur R :=
  unfold at_current; rewrite (rel_cur _ _ R);
  destruct (current _) as [j|] eqn:C; cbn [of_option bind].

Lemma sel_get {V} j (d : dict V) : dmem j d = true -> exists v, dget j d = Some v.
Proof. unfold dmem. destruct (dget j d); [eauto | discriminate]. Qed.

Lemma eqb_sym_orb (x k : string) b : (if String.eqb x k then true else b) = (String.eqb x k || b)%bool.
Proof. destruct (String.eqb x k); reflexivity. Qed.

Ltac selcases j :=
  match goal with
  | |- context [String.eqb ?x j] => destruct (String.eqb_spec x j) as [->|?]
  end.

Lemma lib_op_rel l a op :
  lib_rel l a ->
  match lib_apply l op, spec_op a op with
  | Ok l', Some a' => lib_rel l' a'
  | Err _, None => True
  | _, _ => False
  end.
Proof.
  intros R. destruct op as [j|s|n r|g b|p].
  - cbn. constructor; cbn; unfold upd1.
    + reflexivity.
    + intros x [= ->]. rewrite String.eqb_refl. reflexivity.
    + intros x. rewrite dmem_setdefault, (rel_sel _ _ R). symmetry; apply eqb_sym_orb.
    + intros x. rewrite dmem_setdefault, (rel_sel_p _ _ R). symmetry; apply eqb_sym_orb.
    + intros x. rewrite dmem_setdefault, (rel_sel_r _ _ R). symmetry; apply eqb_sym_orb.
    + intros x. rewrite dmem_setdefault, (rel_sel_b _ _ R). symmetry; apply eqb_sym_orb.
    + intros x. destruct (String.eqb x j); [discriminate|]. apply (rel_unsel _ _ R).
    + intros x d. rewrite dget_setdefault. destruct (dget x (lib_skills l)) as [d'|] eqn:E.
      * intros [= <-]. apply (rel_sk _ _ R). exact E.
      * destruct (String.eqb_spec x j) as [->|N]; [|discriminate]. intros [= <-] n. cbn. symmetry.
        apply (rel_unsel _ _ R). rewrite <- (rel_sel _ _ R). unfold dmem. rewrite E. reflexivity.
    + intros x d. rewrite dget_setdefault. destruct (dget x (lib_resources l)) as [d'|] eqn:E.
      * intros [= <-]. apply (rel_rs _ _ R). exact E.
      * destruct (String.eqb_spec x j) as [->|N]; [|discriminate]. intros [= <-] n. cbn. symmetry.
        apply (rel_unsel _ _ R). rewrite <- (rel_sel_r _ _ R). unfold dmem. rewrite E. reflexivity.
    + intros x d. rewrite dget_setdefault. destruct (dget x (lib_breakers l)) as [d'|] eqn:E.
      * intros [= <-]. apply (rel_br _ _ R). exact E.
      * destruct (String.eqb_spec x j) as [->|N]; [|discriminate]. intros [= <-] n. cbn. symmetry.
        apply (rel_unsel _ _ R). rewrite <- (rel_sel_b _ _ R). unfold dmem. rewrite E. reflexivity.
    + intros x d. rewrite dget_setdefault. destruct (dget x (lib_priority l)) as [d'|] eqn:E.
      * intros [= <-]. apply (rel_pr _ _ R). exact E.
      * destruct (String.eqb_spec x j) as [->|N]; [|discriminate]. intros [= <-]. symmetry.
        apply (rel_unsel _ _ R). rewrite <- (rel_sel_p _ _ R). unfold dmem. rewrite E. reflexivity.
  - cbn [lib_apply spec_op]. unfold add_skill. at_cur R; [|exact I].
    pose proof (rel_cur_sel _ _ R j C) as S.
    destruct (sel_get j (lib_skills l)) as (d & G); [rewrite (rel_sel _ _ R); exact S|].
    rewrite G. cbn [of_option bind]. unfold dmem. rewrite (rel_sk _ _ R j d G).
    destruct (skill_at a j (sk_name s)) eqn:K; [exact I|].
    destruct R; constructor; cbn; auto; try congruence.
    + intros x. rewrite dmem_dset, rel_sel0. destruct (String.eqb_spec x j) as [->|N]; [rewrite S|]; reflexivity.
    + intros x Hx. destruct (rel_unsel0 x Hx) as (H1 & H2 & H3). split; [|auto]. intros n.
      unfold upd2, upd1. destruct (String.eqb_spec x j) as [->|N]; [congruence | apply H1].
    + intros x d'. rewrite dget_dset. unfold upd2, upd1. destruct (String.eqb_spec x j) as [->|N].
      * intros [= <-] n. rewrite dget_dset. rewrite (rel_sk0 j d G). reflexivity.
      * apply rel_sk0.
  - cbn [lib_apply spec_op]. unfold lib_add_resource. at_cur R; [|exact I].
    pose proof (rel_cur_sel _ _ R j C) as S.
    destruct (sel_get j (lib_resources l)) as (d & G); [rewrite (rel_sel_r _ _ R); exact S|].
    rewrite G. cbn [of_option bind].
    destruct R; constructor; cbn; auto; try congruence.
    + intros x. rewrite dmem_dset, rel_sel_r0. destruct (String.eqb_spec x j) as [->|N]; [rewrite S|]; reflexivity.
    + intros x Hx. destruct (rel_unsel0 x Hx) as (H1 & H2 & H3). split; [|auto]. intros n'.
      unfold upd2, upd1. destruct (String.eqb_spec x j) as [->|N]; [congruence | apply H1].
    + intros x d'. rewrite dget_dset. unfold upd2, upd1. destruct (String.eqb_spec x j) as [->|N].
      * intros [= <-] n'. rewrite dget_dset. rewrite (rel_rs0 j d G). reflexivity.
      * apply rel_rs0.
  - cbn [lib_apply spec_op]. unfold add_combo_breaker. at_cur R; [|exact I].
    pose proof (rel_cur_sel _ _ R j C) as S.
    destruct (sel_get j (lib_breakers l)) as (d & G); [rewrite (rel_sel_b _ _ R); exact S|].
    rewrite G. cbn [of_option bind].
    destruct R; constructor; cbn; auto; try congruence.
    + intros x. rewrite dmem_dset, rel_sel_b0. destruct (String.eqb_spec x j) as [->|N]; [rewrite S|]; reflexivity.
    + intros x Hx. destruct (rel_unsel0 x Hx) as (H1 & H2 & H3). split; [auto|]. split; [|auto]. intros g'.
      unfold updz, upd1. destruct (String.eqb_spec x j) as [->|N]; [congruence | apply H2].
    + intros x d'. rewrite dget_dset. unfold updz, upd1. destruct (String.eqb_spec x j) as [->|N].
      * intros [= <-] g'. rewrite zget_zset. rewrite (rel_br0 j d G). reflexivity.
      * apply rel_br0.
  - cbn [lib_apply spec_op]. unfold set_status_effect_priority. rewrite (rel_cur _ _ R).
    destruct (current a) as [j|] eqn:C; cbn [of_option bind]; [|exact I].
    pose proof (rel_cur_sel _ _ R j C) as S.
    destruct R; constructor; cbn; auto; try congruence.
    + intros x. rewrite dmem_dset, rel_sel_p0. destruct (String.eqb_spec x j) as [->|N]; [rewrite S|]; reflexivity.
    + intros x Hx. destruct (rel_unsel0 x Hx) as (H1 & H2 & H3). split; [auto|]. split; [auto|].
      unfold upd1. destruct (String.eqb_spec x j) as [->|N]; [congruence | auto].
    + intros x d'. rewrite dget_dset. unfold upd1. destruct (String.eqb_spec x j) as [->|N]; [congruence | apply rel_pr0].
Qed.

Lemma lib_step_rel l a op : lib_rel l a -> lib_rel (lib_step l op) (spec_step a op).
Proof.
  intros R. pose proof (lib_op_rel l a op R) as H. unfold lib_step, spec_step.
  destruct (lib_apply l op), (spec_op a op); try contradiction; assumption.
Qed.

Lemma lib_run_rel v lvl ops : lib_rel (lib_run v lvl ops) (spec_run ops).
Proof.
  unfold lib_run, spec_run. generalize (lib_rel_init v lvl). generalize (lib_init v lvl), spec_init.
  induction ops as [|op ops IH]; intros l a R; cbn; [exact R|]. apply IH, lib_step_rel, R.
Qed.

Lemma library_lookup v lvl ops name job :
  let l := lib_run v lvl ops in let a := spec_run ops in
  get_skill l name job = of_option KeyError (skill_at a job name)
  /\ has_skill l name job
     = (if selected a job then Ok (match skill_at a job name with Some _ => true | None => false end)
        else Err KeyError)
  /\ has_job_class l job = selected a job
  /\ (In job (get_jobs l) <-> selected a job = true)
  /\ get_status_effect_priority l job = (if selected a job then Ok (priority_of a job) else Err KeyError)
  /\ (forall d, get_all_resource_settings l job = Ok d -> forall n, dget n d = resource_at a job n)
  /\ (forall d, get_all_combo_breakers l job = Ok d -> forall g, zget g d = breaker_at a job g)
  /\ is_ok (get_all_resource_settings l job) = selected a job
  /\ is_ok (get_all_combo_breakers l job) = selected a job.
Proof.
  cbn zeta. pose proof (lib_run_rel v lvl ops) as R.
  set (l := lib_run v lvl ops) in *. set (a := spec_run ops) in *.
  pose proof (rel_sel _ _ R job) as S. pose proof (rel_sel_p _ _ R job) as Sp.
  pose proof (rel_sel_r _ _ R job) as Sr. pose proof (rel_sel_b _ _ R job) as Sb.
  unfold get_skill, has_skill, has_job_class, get_jobs, get_status_effect_priority,
    get_all_resource_settings, get_all_combo_breakers.
  split; [|split; [|split; [|split; [|split; [|split; [|split; [|split]]]]]]].
  - unfold dmem in S. destruct (dget job (lib_skills l)) as [d|] eqn:G; cbn [of_option bind].
    + rewrite (rel_sk _ _ R job d G). reflexivity.
    + symmetry in S. destruct (rel_unsel _ _ R job S) as (H & _). destruct (H name) as [-> _]. reflexivity.
  - unfold dmem in *. destruct (dget job (lib_skills l)) as [d|] eqn:G; cbn [of_option bind]; rewrite <- S; [|reflexivity].
    rewrite (rel_sk _ _ R job d G). destruct (skill_at a job name); reflexivity.
  - exact S.
  - rewrite <- S. symmetry. apply dmem_spec.
  - unfold dmem in Sp. destruct (dget job (lib_priority l)) as [d|] eqn:G; rewrite <- Sp; cbn; [|reflexivity].
    rewrite (rel_pr _ _ R job d G). reflexivity.
  - intros d H. apply (rel_rs _ _ R). destruct (dget job (lib_resources l)); cbn in H; congruence.
  - intros d H. apply (rel_br _ _ R). destruct (dget job (lib_breakers l)); cbn in H; congruence.
  - rewrite <- Sr. unfold dmem. destruct (dget job (lib_resources l)); reflexivity.
  - rewrite <- Sb. unfold dmem. destruct (dget job (lib_breakers l)); reflexivity.
Qed.

(** A call is refused exactly when the specification refuses it, and with what. *)
Lemma library_refusal v lvl ops op :
  is_ok (lib_apply (lib_run v lvl ops) op)
  = match spec_op (spec_run ops) op with Some _ => true | None => false end.
Proof.
  pose proof (lib_op_rel _ _ op (lib_run_rel v lvl ops)) as H.
  destruct (lib_apply _ op), (spec_op _ op); try contradiction; reflexivity.
Qed.
Lemma library_duplicate v lvl ops j s s' :
  current (spec_run ops) = Some j -> skill_at (spec_run ops) j (sk_name s) = Some s' ->
  add_skill (lib_run v lvl ops) s = Err RuntimeError.
Proof.
  intros C K. pose proof (lib_run_rel v lvl ops) as R.
  unfold add_skill, at_current. rewrite (rel_cur _ _ R), C. cbn [of_option bind].
  destruct (sel_get j (lib_skills (lib_run v lvl ops))) as (d & G).
  { rewrite (rel_sel _ _ R). apply (rel_cur_sel _ _ R). exact C. }
  rewrite G. cbn [of_option bind]. unfold dmem. rewrite (rel_sk _ _ R j d G), K. reflexivity.
Qed.

(** add_all_skills_from is a sequence of calls (none when a job's skills fail with ValueError). *)
Definition class_ops (cs : class_skills) (sks : list skill) : list lib_op :=
  SelectJob (cs_job cs)
  :: match cs_priority cs with Some p => [SetPriority p] | None => [] end
  ++ match cs_breakers cs with Some b => map (fun gb => AddBreaker (fst gb) (snd gb)) b | None => [] end
  ++ map AddSkill sks
  ++ map (fun nr => AddResource (fst nr) (snd nr)) (cs_resources cs).

Lemma foldM_map {A B S} (f : S -> B -> res S) (g : A -> B) l : forall s,
  foldM f (map g l) s = foldM (fun s a => f s (g a)) l s.
Proof. induction l as [|a l IH]; intros s; cbn; [reflexivity|]. destruct (f s (g a)); cbn; auto. Qed.

Lemma add_all_skills_ops l cs sks :
  cs_skills cs = Ok sks \/ (cs_skills cs = Err ValueError /\ sks = []) ->
  add_all_skills_from l cs = foldM lib_apply (class_ops cs sks) l.
Proof.
  intros H. unfold add_all_skills_from, class_ops. cbn [foldM lib_apply bind].
  set (l0 := set_current_job_class l (cs_job cs)).
  rewrite foldM_app.
  replace (match cs_priority cs with Some p => set_status_effect_priority l0 p | None => Ok l0 end)
    with (foldM lib_apply match cs_priority cs with Some p => [SetPriority p] | None => [] end l0).
  2:{ destruct (cs_priority cs); [|reflexivity]. cbn. destruct (set_status_effect_priority l0 l1); reflexivity. }
  destruct (foldM lib_apply _ l0) as [l1|]; [|reflexivity]. cbn [bind]. rewrite foldM_app.
  replace (match cs_breakers cs with
           | Some b => foldM (fun l gb => add_combo_breaker l (fst gb) (snd gb)) b l1 | None => Ok l1 end)
    with (foldM lib_apply match cs_breakers cs with
            | Some b => map (fun gb => AddBreaker (fst gb) (snd gb)) b | None => [] end l1).
  2:{ destruct (cs_breakers cs); [|reflexivity]. rewrite foldM_map. reflexivity. }
  destruct (foldM lib_apply _ l1) as [l2|]; [|reflexivity]. cbn [bind]. rewrite foldM_app.
  assert (E : add_class_skills l2 (cs_skills cs) = foldM lib_apply (map AddSkill sks) l2).
  { destruct H as [->|[-> ->]]; [|reflexivity]. rewrite foldM_map. reflexivity. }
  rewrite E. destruct (foldM lib_apply (map AddSkill sks) l2) as [l3|]; [|reflexivity]. cbn [bind].
  rewrite foldM_map. reflexivity.
Qed.
