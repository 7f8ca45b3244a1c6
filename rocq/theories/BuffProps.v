(** * Damage with further timed buffs (C86) *)

From Coq Require Import ZArith QArith List String Bool Lia Permutation Sorted.
From Verif Require Import Base BaseFacts Heap HeapFacts Types Lookup Stats Library Events Rotation DamageBuild Damage SpecHit SpecGame SpecQueue SpecRun SpecLater SpecReplay SpecShuffle SpecTimeline
  SpecIdle SpecCause SpecGear EventsFacts RunFacts GearProps SpecBuff BuffFacts BuffDamage BuffTime.
Import ListNotations.
Open Scope Z_scope.

Lemma perm_flat_map {A B} (f : A -> list B) l l' : Permutation l l' -> Permutation (flat_map f l) (flat_map f l').
Proof.
  induction 1 as [|x l l' P IH|x y l|l l1 l2 P1 IH1 P2 IH2]; cbn [flat_map]; [constructor|apply Permutation_app_head, IH|rewrite !app_assoc; apply Permutation_app_tail, Permutation_app_comm|etransitivity; eassumption].
Qed.
Lemma places_anon l : flat_map places (map anon l) = flat_map places l.
Proof. induction l as [|e l IH]; cbn [map flat_map]; [reflexivity|]. rewrite IH. reflexivity. Qed.
Lemma nodup_right {A} (l l' : list A) : NoDup (l ++ l') -> NoDup l'.
Proof. induction l as [|x l IH]; [auto|]. cbn. intros N. inversion N; auto. Qed.

Theorem support_hits extra st lib snap start w target b0 l b r hits hits' :
  rb_init st lib snap false false start w target = Ok b0 -> follow b0 l = Ok b -> with_support extra b -> distinct_times b ->
  get_skill_timing b = Ok r -> Forall orderly (timeline r) -> distinct_places (timeline r) ->
  hits_with st lib snap false false start w target (unsupported extra b0 l) = Ok hits ->
  hits_with st lib snap false false start w target l = Ok hits' -> boosted_hits hits hits'.
Proof.
  intros B0 F W D H O P G G'.
  assert (O' : Forall orderly (q_heap (b_queue r))) by (unfold timeline in O; rewrite Forall_map in O; exact O).
  destruct (timed_supported extra st lib snap start w target b0 l b r B0 F W D H O') as (b' & r' & F' & H' & S & I & Or & Q & Q').
  unfold hits_with in G, G'. rewrite B0 in G, G'. cbn [bind] in G, G'. rewrite F' in G. rewrite F in G'. cbn [bind] in G, G'. rewrite H' in G. rewrite H in G'. cbn [bind] in G, G'.
  apply bind_ok in G as (tk & N & G). rewrite N in G'. cbn [bind] in G'. apply bind_ok in G as ([[tk1 q1] o] & A & G). injection G as <-. apply bind_ok in G' as ([[tk1' q1'] o'] & A' & G'). injection G' as <-.
  refine (buffs_keep_hits extra st lib tk (b_queue r') (b_queue r) tk1 tk1' q1 q1' o o' Q' Q S I Or _ N A A').
  destruct S as (more & Pm & _). unfold distinct_places, timeline in *. rewrite places_anon in P. apply (nodup_right (flat_map places more)).
  rewrite <- flat_map_app. eapply Permutation_NoDup; [|exact P]. rewrite <- (places_anon (q_heap (b_queue r))), <- (places_anon (more ++ _)). apply perm_flat_map, Pm.
Qed.

Lemma boosted_damage g st x x' r : gear_nonneg g -> stats_of g = Ok st -> sane_hit x -> boosted_hit x x' -> row_of st x = Ok r ->
  exists r', row_of st x' = Ok r' /\ forall u, drawn u -> (fst (fst (sample_cell r u)) <= fst (fst (sample_cell r' u)))%Q.
Proof.
  intros N S Sn B R. destruct (row_buff g st x x' r N S Sn B R) as (r' & R' & U). exists r'. split; [exact R'|]. intros u V. exact (sample_buffed r r' u U V).
Qed.

Theorem support_damage extra g st lib snap start w target b0 l b r hits hits' :
  sane_library lib -> gear_nonneg g -> stats_of g = Ok st ->
  rb_init st lib snap false false start w target = Ok b0 -> follow b0 l = Ok b -> with_support extra b -> distinct_times b ->
  get_skill_timing b = Ok r -> Forall orderly (timeline r) -> distinct_places (timeline r) ->
  hits_with st lib snap false false start w target (unsupported extra b0 l) = Ok hits ->
  hits_with st lib snap false false start w target l = Ok hits' ->
  exists a a', Permutation hits a /\ Permutation hits' a'
    /\ Forall2 (fun x x' => same_place x x' /\ forall c, row_of st x = Ok c -> exists c', row_of st x' = Ok c'
         /\ forall u, drawn u -> (fst (fst (sample_cell c u)) <= fst (fst (sample_cell c' u)))%Q) a a'.
Proof.
  intros L N S B0 F W D H O P G G'. destruct (support_hits _ _ _ _ _ _ _ _ _ _ _ _ _ B0 F W D H O P G G') as (a & a' & A & A' & B).
  exists a, a'. split; [exact A|]. split; [exact A'|].
  pose proof (hits_sane lib L _ _ _ _ _ _ _ _ _ G) as Sn. apply (Permutation_Forall A) in Sn.
  clear - N S B Sn. induction B as [|x x' a a' Bx B IH]; [constructor|]. inversion Sn as [|? ? Sx Sn']; subst. constructor; [|exact (IH Sn')].
  split; [destruct Bx as (T1 & T2 & _ & T3 & _); split; [exact T1|]; split; assumption|]. intros c R. exact (boosted_damage g st x x' c N S Sx Bx R).
Qed.
