(** * Lemmas behind PropsDamageBuild.v *)

From Coq Require Import ZArith QArith List String Bool Permutation Sorted Lia.
From Verif Require Import Base BaseFacts Heap HeapFacts Stats Strings Types Lookup StatusEffect JobResource Combo Events EventsFacts
  Rotation DamageBuild Damage SpecQueue SpecPlay SpecTimeline TimelineFacts SpecDots SpecRun RunFacts RunProps TimelineProps RunAgain
  SpecDamage DamageFacts DamageStory DamageRun DamageTrace DamageLeak.
Import ListNotations.
Open Scope string_scope.
Open Scope Z_scope.

Lemma timeline_damage_terminates b b' tk :
  reachable b -> get_skill_timing b = Ok b' -> get_damage_instances tk (b_queue b') <> Err OutOfFuel.
Proof. intros R H. apply damage_terminates. exact (proj1 (timeline_prepared _ _ R H)). Qed.

Lemma hits_described b b' tk tk' qu' l :
  reachable b -> get_skill_timing b = Ok b' -> get_damage_instances tk (b_queue b') = Ok (tk', qu', l) ->
  exists h hits, damage_run tk (q_heap (b_queue b')) tk' l h hits /\ NoDup (map label h)
    /\ Permutation l (List.concat hits)
    /\ Forall2 (fun e is => exists t, effect_time e t /\ lands e (described tk h e) t 0 (ev_targets e) is)
         (q_heap (b_queue b')) hits.
Proof.
  intros R H HD. destruct (damage_run_of_timeline _ _ _ _ _ _ R H HD) as (_ & h & hits & DR & N & _ & F).
  exists h, hits. split; [exact DR|]. split; [exact N|]. split; [apply DR | exact F].
Qed.

Lemma one_hit_per_target b b' tk tk' qu' l :
  reachable b -> get_skill_timing b = Ok b' -> get_damage_instances tk (b_queue b') = Ok (tk', qu', l) ->
  q_is_empty qu' = true
  /\ StronglySorted (fun i j => di_time i <= di_time j) l
  /\ exists hits, Permutation l (List.concat hits)
       /\ Forall2 (fun e is => exists t, effect_time e t
                     /\ lands e (fun k x m bu de => extends (ev_modifier e) m) t 0 (ev_targets e) is)
            (q_heap (b_queue b')) hits.
Proof.
  intros R H HD. destruct (damage_run_of_timeline _ _ _ _ _ _ R H HD) as (E & h & hits & DR & N & _ & F).
  split; [exact E|]. split; [apply DR|]. exists hits. split; [apply DR|].
  clear - F. induction F as [|e is evs hits (t & T & L) F IH]; constructor; [|exact IH].
  exists t. split; [exact T|]. eapply lands_impl; [|exact L].
  intros k x m b d (f & g & nb & nd & nr & nc & np & mc & mp & D). cbv zeta in D. tauto.
Qed.

Lemma traces_back_same b b' tk tk' qu' l st sim :
  built b -> b_autos b = false -> get_skill_timing b = Ok b' -> get_damage_instances tk (b_queue b') = Ok (tk', qu', l) ->
  ds_init st l = Ok sim ->
  exists slog tlog, rotation_played b slog tlog
    /\ (distinguishable (flat_map press_dots (slog ++ tlog)) ->
        small_times (b_snap_dots b) (flat_map press_dots (slog ++ tlog)) ->
        exists r, add_damage_snapshots sim b' = Ok r /\ map fst r = l
          /\ Forall (fun xt => exists e, In e (q_heap (b_queue b')) /\ di_id (fst xt) = ev_id e /\ di_skill (fst xt) = ev_skill e
                       /\ snd xt = ev_primary e) r).
Proof.
  intros B A H HD HS. destruct (run_again b b' B A H) as (slog & tlog & RP & K). exists slog, tlog. split; [exact RP|].
  intros D S. destruct (K D S) as (b'' & H2 & Q & _).
  exact (traces_back _ _ _ _ _ _ _ _ _ _ (built_reachable _ B) H HD HS H2 Q).
Qed.

Lemma second_as_first st lib tk b b' tk1 qu1 l1 qu2 :
  db_init st lib = Ok tk -> reachable b -> get_skill_timing b = Ok b' ->
  (forall e, In e (q_heap (b_queue b')) -> traceless (ev_skill e)) ->
  get_damage_instances tk (b_queue b') = Ok (tk1, qu1, l1) ->
  outcome (get_damage_instances tk1 qu2) = outcome (get_damage_instances tk qu2).
Proof.
  intros D R H T HD. apply alike_outcome.
  refine (as_new _ _ _ _ _ _ (new_is_idle _ _ _ D) (proj1 (timeline_prepared _ _ R H)) _ HD).
  apply Forall_forall. exact T.
Qed.

(** ** Clashes *)

Section Err.
  Context {A : Type} (lt : A -> A -> res bool) (bad : err).
  Hypothesis not_fuel : bad <> OutOfFuel.
  Hypothesis not_index : bad <> IndexError.

  Lemma upd_in h : forall i (x : A) y, In y (upd h i x) -> y = x \/ In y h.
  Proof.
    induction h as [|a h IH]; intros i x y H; cbn in H; [tauto|]. destruct i as [|i]; cbn in H.
    - destruct H as [<-|H]; [now left | right; now right].
    - destruct H as [<-|H]; [right; now left|]. destruct (IH _ _ _ H); [now left | right; now right].
  Qed.
  Lemma siftdown_err fuel : forall h pos, siftdown lt fuel h pos = Err bad ->
    exists a b, In a h /\ In b h /\ lt a b = Err bad.
  Proof.
    induction fuel as [|fuel IH]; intros h pos H; cbn in H; [injection H as H; congruence|].
    destruct pos as [|p]; [discriminate H|].
    destruct (nth_error h (S p)) as [x|] eqn:Ex; [|injection H as H; congruence].
    destruct (nth_error h (Nat.div2 p)) as [y|] eqn:Ey; [|injection H as H; congruence].
    apply nth_error_In in Ex, Ey. destruct (lt x y) as [[]|e] eqn:E; cbn in H.
    - destruct (IH _ _ H) as (a & b & Ia & Ib & L). exists a, b. split; [|split; [|exact L]].
      + apply upd_in in Ia as [->|Ia]; [exact Ex|]. apply upd_in in Ia as [->|Ia]; [exact Ey | exact Ia].
      + apply upd_in in Ib as [->|Ib]; [exact Ex|]. apply upd_in in Ib as [->|Ib]; [exact Ey | exact Ib].
    - discriminate H.
    - injection H as ->. exists x, y. auto.
  Qed.
  Lemma heappush_err h x : heappush lt h x = Err bad -> exists a b, In a (x :: h) /\ In b (x :: h) /\ lt a b = Err bad.
  Proof.
    intro H. apply siftdown_err in H as (a & b & Ia & Ib & L). exists a, b.
    split; [|split; [|exact L]]; [apply in_app_or in Ia as [Ia|[<-|[]]] | apply in_app_or in Ib as [Ib|[<-|[]]]]; cbn; auto.
  Qed.
End Err.

Lemma push_clash l x :
  heappush inst_lt l x = Err TypeError ->
  exists i j, In i (x :: l) /\ In j (x :: l) /\ di_time i = di_time j /\ sk_name (di_skill i) = sk_name (di_skill j)
    /\ modifier_eqb (di_modifier i) (di_modifier j) = true
    /\ (effects_eqb (fst (di_effects i)) (fst (di_effects j)) = false \/ effects_eqb (snd (di_effects i)) (snd (di_effects j)) = false).
Proof.
  intro H. apply heappush_err in H as (i & j & Ii & Ij & L); [|discriminate|discriminate]. exists i, j.
  split; [exact Ii|]. split; [exact Ij|]. unfold inst_lt in L.
  destruct (Z.eqb_spec (di_time i) (di_time j)) as [T|]; cbn [negb] in L; [|discriminate L].
  destruct (String.eqb_spec (sk_name (di_skill i)) (sk_name (di_skill j))) as [N|]; cbn [negb] in L; [|discriminate L].
  destruct (skill_eqb _ _); cbn [negb] in L; [|discriminate L].
  destruct (modifier_eqb _ _); cbn [negb] in L; [|discriminate L].
  split; [exact T|]. split; [exact N|]. split; [reflexivity|].
  destruct (effects_eqb (fst _) _); cbn [andb negb] in L; [|now left].
  destruct (effects_eqb (snd _) _); cbn [negb] in L; [|now right].
  destruct (negb _) in L; discriminate L.
Qed.
