(** * Resources of the shipped jobs *)

From Coq Require Import ZArith List String Bool.
From Verif Require Import Base BaseFacts PyFacts Strings Types Library LibraryFacts GameLib GameFacts GameCheck ExampleCheck GamePoints GameLoad GameProps SpecMove.
Import ListNotations.
Open Scope string_scope.
Open Scope Z_scope.

Lemma in_dset {A} k (v : A) x d : In x (dset k v d) -> x = (k, v) \/ In x d.
Proof.
  induction d as [|[k' v'] d IH]; cbn [dset]; [intros [<-|[]]; left; reflexivity|].
  destruct (String.eqb k k') eqn:E; cbn [In]; [intros [<-|I]; [left|right; right; exact I]|intros [<-|I]; [auto|]].
  - apply String.eqb_eq in E as ->. reflexivity.
  - destruct (IH I); auto.
Qed.
Lemma set_resources_in x l : In x (set_resources l) -> In x l.
Proof.
  unfold set_resources.
  assert (A : forall l d, In x (fold_left (fun (d : dict jr_settings) nr => dset (fst nr) (snd nr) d) l d) -> In x l \/ In x d).
  { clear l. induction l as [|[a b] l IH]; intros d; cbn [fold_left fst snd]; [auto|]. intros I. apply IH in I as [I|I]; [left; right; exact I|].
    apply in_dset in I as [->|I]; [left; left; reflexivity|right; exact I]. }
  intros I. destruct (A l [] I) as [K|[]]. exact K.
Qed.
Lemma shipped_lasting v lv lib j :
  create_skill_library v lv = Ok lib -> j <> "BLM" -> lasting_resources lib j.
Proof.
  intros C B rs n c E I. destruct (loaded v lv) as (js & ps & J & P & N & K & _ & M & _ & X).
  { apply loads_iff. exists lib. exact C. }
  rewrite C in X. injection X as ->. destruct (loaded_nodup js ps _ _ N K M J) as [N1 _].
  unfold get_all_resource_settings, point_lib, lib_of in E. cbn [lib_resources] in E.
  destruct (dget j (map (fun x => (lj_job x, set_resources (cs_resources (fst x)))) js)) as [rs'|] eqn:D; [|discriminate E].
  cbn [of_option] in E. injection E as <-.
  apply (dget_jobs (fun x => set_resources (cs_resources (fst x))) js j _ N1) in D as (x & Ix & <- & <-).
  rewrite forallb_forall in K. specialize (K x Ix). unfold job_ok in K. rewrite !andb_true_iff in K. destruct K as [[_ [[_ L] _]] _].
  apply eqb_prop in L. destruct (String.eqb_spec (lj_job x) "BLM") as [Y|_]; [contradiction|]. cbn [negb] in L.
  unfold lastingb in L. rewrite forallb_forall in L. apply set_resources_in in I. specialize (L _ I). cbn [snd] in L.
  destruct (jrs_expiry c); [discriminate L|reflexivity].
Qed.
