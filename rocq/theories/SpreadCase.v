(** * Skills that apply late and hit more enemies *)

From Coq Require Import ZArith QArith List String Bool Lia Permutation.
From Verif Require Import Base Float Strings Types Lookup Stats Library StatusEffect Channeling JobResource Combo Events Rotation
  DamageBuild Fixtures SpecPlay SpecTimeline SpecRun RunCounter ApiFacts SpecCause CauseCase SpecSpread.
Import ListNotations.
Open Scope string_scope.
Open Scope Z_scope.

Definition sp_new (x : string) : bool := String.eqb x "C".
Definition sp_builder : res builder := rb_init fx_stats fx_library None false false (Some 0) (RWTuple []) "A".

(** A buff on two enemies and on three; a hit after 20.3 s. *)
Definition sp_buff (t : string) : res builder := and_add (and_add sp_builder (q 0) "Boost" None (Some t)) (dec 203 10) "Quick" None None.
(** A buff that ends after 20.2 s; a hit on two enemies and on three that lands after 20 s; another hit after 20.05 s. *)
Definition sp_hit (t : string) : res builder :=
  and_add (and_add (and_add sp_builder (dec 1 10) "Boost" None None) (dec 195 10) "Hit" None (Some t)) (dec 2005 100) "Quick" None None.


Lemma sp_buff_built t : all_built (sp_buff t).
Proof. unfold sp_buff. do 2 apply and_add_built. apply init_built. Qed.
Lemma sp_hit_built t : all_built (sp_hit t).
Proof. unfold sp_hit. do 3 apply and_add_built. apply init_built. Qed.

Lemma joined_here (may : event -> Prop) new e e' extra :
  e' = also_on e extra -> forallb (fun x => negb (new x)) (ev_targets e) = true -> forallb new extra = true ->
  (extra <> [] -> may e /\ (2 <= List.length (ev_targets e))%nat) -> joined may new e e'.
Proof.
  intros E F G N. exists extra. split; [exact E|]. split; [|split; [|exact N]]; apply Forall_forall.
  - rewrite forallb_forall in F. intros x I. apply negb_true_iff, F, I.
  - rewrite forallb_forall in G. exact G.
Qed.

(** The same hit with another damage bonus. *)
Definition same_hit (i i' : instance) : Prop := fst (outline i) = fst (outline i').
Definition bonus (i : instance) : Q := snd (outline i).
Definition hit_of (h : Z * string * string) (i : instance) : bool :=
  (fst (fst h) =? fst (fst (fst (outline i)))) && String.eqb (snd (fst h)) (snd (fst (fst (outline i)))) && String.eqb (snd h) (snd (fst (outline i))).
Lemma hit_of_sound h i : hit_of h i = true -> fst (outline i) = h.
Proof.
  unfold hit_of. intros H. apply andb_true_iff in H as [H C]. apply andb_true_iff in H as [A B].
  apply Z.eqb_eq in A. apply String.eqb_eq in B, C. destruct h as [[t n] x]. cbn [fst snd] in *. subst. reflexivity.
Qed.
Definition gains (l l' : list instance) (h : Z * string * string) : bool :=
  match find (hit_of h) l, find (hit_of h) l' with
  | Some i, Some i' => negb (Qle_bool (bonus i') (bonus i))
  | _, _ => false
  end.
Lemma gains_sound l l' h : gains l l' h = true -> exists i i', In i l /\ In i' l' /\ same_hit i i' /\ (bonus i < bonus i')%Q.
Proof.
  unfold gains. destruct (find (hit_of h) l) as [i|] eqn:E; [|discriminate]. destruct (find (hit_of h) l') as [i'|] eqn:E'; [|discriminate].
  intros H. apply find_some in E as [I E]. apply find_some in E' as [I' E']. exists i, i'. split; [exact I|]. split; [exact I'|].
  split; [unfold same_hit; rewrite (hit_of_sound _ _ E), (hit_of_sound _ _ E'); reflexivity|].
  apply Qnot_le_lt. intros N. apply Qle_bool_iff in N. rewrite N in H. discriminate H.
Qed.

(** Newcomers [extras] join the events of [l], in the order in which they are stored. *)
Definition with_extras (l : list event) (extras : list (list string)) : list event :=
  map (fun p => also_on (fst p) (snd p)) (combine l extras).
Definition extras_ok (new : string -> bool) (l : list event) (extras : list (list string)) : bool :=
  Nat.eqb (List.length l) (List.length extras)
  && forallb (fun p => forallb (fun x => negb (new x)) (ev_targets (fst p)) && forallb new (snd p)
                       && match snd p with [] => true | _ => Nat.leb 2 (List.length (ev_targets (fst p))) end) (combine l extras).
Lemma extras_join new (may : event -> Prop) l l' extras :
  l' = with_extras l extras -> extras_ok new l extras = true -> (forall e x, In (e, x) (combine l extras) -> x <> [] -> may e) ->
  newcomers_join may new l l'.
Proof.
  intros -> H M. exists (with_extras l extras). split; [apply Permutation_refl|]. apply andb_true_iff in H as [L H]. apply Nat.eqb_eq in L.
  revert extras L H M. induction l as [|e l IH]; intros [|x extras] L H M; try discriminate L; [constructor|].
  cbn [combine forallb fst snd] in H. apply andb_true_iff in H as [H H'].
  constructor; [|apply IH; [injection L; auto|exact H'|intros e' x' J; apply M; right; exact J]].
  apply andb_true_iff in H as [H K]. apply andb_true_iff in H as [H H2]. apply (joined_here _ _ _ _ x); [reflexivity|exact H|exact H2|].
  intros N. split; [apply (M e x); [left; reflexivity|exact N]|]. destruct x; [destruct (N eq_refl)|]. apply Nat.leb_le, K.
Qed.

Definition sp_runs (start start' : res builder) (b b' r r' : builder) (d d' : trackers * queue * list instance) : Prop :=
  start = Ok b /\ start' = Ok b' /\ get_skill_timing b = Ok r /\ get_skill_timing b' = Ok r'
  /\ get_damage_instances (cz_trackers fx_library) (b_queue r) = Ok d /\ get_damage_instances (cz_trackers fx_library) (b_queue r') = Ok d'.
Definition sp_damage (x : res builder) : trackers * queue * list instance := cz_damage fx_library (snd (ran x)).
Lemma sp_buff_runs :
  sp_runs (sp_buff "A, B") (sp_buff "A, B, C") (fst (ran (sp_buff "A, B"))) (fst (ran (sp_buff "A, B, C")))
    (snd (ran (sp_buff "A, B"))) (snd (ran (sp_buff "A, B, C"))) (sp_damage (sp_buff "A, B")) (sp_damage (sp_buff "A, B, C")).
Proof. split; [|split; [|split; [|split; [|split]]]]; vm_compute; reflexivity. Qed.
Lemma sp_hit_runs :
  sp_runs (sp_hit "A, B") (sp_hit "A, B, C") (fst (ran (sp_hit "A, B"))) (fst (ran (sp_hit "A, B, C")))
    (snd (ran (sp_hit "A, B"))) (snd (ran (sp_hit "A, B, C"))) (sp_damage (sp_hit "A, B")) (sp_damage (sp_hit "A, B, C")).
Proof. split; [|split; [|split; [|split; [|split]]]]; vm_compute; reflexivity. Qed.

Lemma sp_differ_from start start' b b' r r' d d' extras (may : event -> Prop) :
  sp_runs start start' b b' r r' d d' -> all_built start -> all_built start' ->
  apart (flat_map places (q_heap (b_queue r))) = true ->
  q_heap (b_queue r') = with_extras (q_heap (b_queue r)) extras -> extras_ok sp_new (q_heap (b_queue r)) extras = true ->
  (forall e x, In (e, x) (combine (q_heap (b_queue r)) extras) -> x <> [] -> may e) ->
  exists tk tk1 tk1' q1 q1',
    built b /\ built b' /\ get_skill_timing b = Ok r /\ get_skill_timing b' = Ok r'
    /\ distinct_places (q_heap (b_queue r)) /\ newcomers_join may sp_new (q_heap (b_queue r)) (q_heap (b_queue r'))
    /\ get_damage_instances tk (b_queue r) = Ok (tk1, q1, snd d) /\ get_damage_instances tk (b_queue r') = Ok (tk1', q1', snd d').
Proof.
  intros (E & E' & R & R' & D & D') B B' A J K M.
  destruct d as [[tk1 q1] l], d' as [[tk1' q1'] l']. exists (cz_trackers fx_library), tk1, tk1', q1, q1'.
  split; [exact (B _ E)|]. split; [exact (B' _ E')|]. split; [exact R|]. split; [exact R'|].
  split; [apply apart_sound, A|]. split; [eapply extras_join; eassumption|]. split; assumption.
Qed.

Lemma buff_lasts_longer :
  exists new b b' r r' tk tk1 tk1' q1 q1' l l' i i',
    built b /\ built b' /\ get_skill_timing b = Ok r /\ get_skill_timing b' = Ok r'
    /\ distinct_places (q_heap (b_queue r))
    /\ newcomers_join (fun e => sk_damage (ev_skill e) = CNone) new (q_heap (b_queue r)) (q_heap (b_queue r'))
    /\ get_damage_instances tk (b_queue r) = Ok (tk1, q1, l) /\ get_damage_instances tk (b_queue r') = Ok (tk1', q1', l')
    /\ In i l /\ In i' (without new l') /\ same_hit i i' /\ (bonus i < bonus i')%Q.
Proof.
  destruct (sp_differ_from _ _ _ _ _ _ _ _ [["C"]; []] (fun e => sk_damage (ev_skill e) = CNone) sp_buff_runs)
    as (tk & tk1 & tk1' & q1 & q1' & H); [apply sp_buff_built|apply sp_buff_built|vm_compute; reflexivity|vm_compute; reflexivity|vm_compute; reflexivity| |].
  { intros e x J N. vm_compute in J. destruct J as [J|[J|[]]]; injection J as <- <-; [reflexivity|destruct (N eq_refl)]. }
  destruct (gains_sound (snd (sp_damage (sp_buff "A, B"))) (without sp_new (snd (sp_damage (sp_buff "A, B, C")))) (20300, "Quick", "A"))
    as (i & i' & G); [vm_compute; reflexivity|].
  exists sp_new. do 4 eexists. exists tk, tk1, tk1', q1, q1'. do 2 eexists. exists i, i'. destruct H as (A & B & C & D & E & F & P & Q).
  split; [exact A|]. split; [exact B|]. split; [exact C|]. split; [exact D|]. split; [exact E|]. split; [exact F|]. split; [exact P|]. split; [exact Q|]. exact G.
Qed.
Lemma buff_ends_sooner :
  exists new b b' r r' tk tk1 tk1' q1 q1' l l' i i',
    built b /\ built b' /\ get_skill_timing b = Ok r /\ get_skill_timing b' = Ok r'
    /\ distinct_places (q_heap (b_queue r))
    /\ newcomers_join (fun e => sk_buff (ev_skill e) = CNone /\ sk_debuff (ev_skill e) = CNone) new (q_heap (b_queue r)) (q_heap (b_queue r'))
    /\ get_damage_instances tk (b_queue r) = Ok (tk1, q1, l) /\ get_damage_instances tk (b_queue r') = Ok (tk1', q1', l')
    /\ In i (without new l') /\ In i' l /\ same_hit i i' /\ (bonus i < bonus i')%Q.
Proof.
  destruct (sp_differ_from _ _ _ _ _ _ _ _ [[]; ["C"]; []] (fun e => sk_buff (ev_skill e) = CNone /\ sk_debuff (ev_skill e) = CNone) sp_hit_runs)
    as (tk & tk1 & tk1' & q1 & q1' & H); [apply sp_hit_built|apply sp_hit_built|vm_compute; reflexivity|vm_compute; reflexivity|vm_compute; reflexivity| |].
  { intros e x J N. vm_compute in J. destruct J as [J|[J|[J|[]]]]; injection J as <- <-; [destruct (N eq_refl)|split; reflexivity|destruct (N eq_refl)]. }
  destruct (gains_sound (without sp_new (snd (sp_damage (sp_hit "A, B, C")))) (snd (sp_damage (sp_hit "A, B"))) (20050, "Quick", "A"))
    as (i & i' & G); [vm_compute; reflexivity|].
  exists sp_new. do 4 eexists. exists tk, tk1, tk1', q1, q1'. do 2 eexists. exists i, i'. destruct H as (A & B & C & D & E & F & P & Q).
  split; [exact A|]. split; [exact B|]. split; [exact C|]. split; [exact D|]. split; [exact E|]. split; [exact F|]. split; [exact P|]. split; [exact Q|]. exact G.
Qed.
