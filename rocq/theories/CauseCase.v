(** * Damage that changes when a rotation goes on *)

From Coq Require Import ZArith QArith List String Bool Lia Permutation.
From Verif Require Import Base Float Strings Types Lookup Stats Library StatusEffect Channeling JobResource Combo Events Rotation
  DamageBuild Fixtures SpecPlay SpecTimeline SpecRun RunCounter ApiFacts SpecLater LaterCase SpecCause.
Import ListNotations.
Open Scope string_scope.
Open Scope Z_scope.

(** Trackers of the damage builder, and its instances for a timeline. *)
Definition cz_trackers (lib : library) : trackers :=
  match db_init fx_stats lib with Ok tk => tk | Err _ => mkTrackers (se_init []) (jr_init []) (combo_init []) end.
Definition cz_damage (lib : library) (r : builder) : trackers * queue * list instance :=
  match get_damage_instances (cz_trackers lib) (b_queue r) with Ok x => x | Err _ => (cz_trackers lib, q_init, []) end.
(** Time, skill, target and damage bonus. *)
Definition outline (i : instance) : Z * string * string * Q :=
  (di_time i, sk_name (di_skill i), di_target i, ef_damage_mult (fst (di_effects i))).


(** Decisions. *)
Definition place_eqb (a b : Z * string) : bool := (fst a =? fst b) && String.eqb (snd a) (snd b).
Fixpoint apart (l : list (Z * string)) : bool :=
  match l with [] => true | x :: l' => negb (existsb (place_eqb x) l') && apart l' end.
Lemma apart_sound l : apart l = true -> NoDup l.
Proof.
  induction l as [|x l IH]; cbn; [constructor|]. intros H. apply andb_true_iff in H as [H H']. constructor; [|auto].
  intros I. apply negb_true_iff in H. rewrite <- not_true_iff_false in H. apply H, existsb_exists. exists x. split; [exact I|].
  unfold place_eqb. rewrite Z.eqb_refl, String.eqb_refl. reflexivity.
Qed.
Definition singles (l : list event) : bool :=
  forallb (fun e => match ev_secondary e with None => true | Some _ => Nat.eqb (List.length (ev_targets e)) 1 end) l.
Lemma singles_sound l : singles l = true -> delayed_single l.
Proof.
  unfold singles. rewrite forallb_forall. intros H e I N. specialize (H e I). destruct (ev_secondary e); [|congruence]. apply Nat.eqb_eq, H.
Qed.

(** A buff for the next six skills that use it. *)
Definition cz_charge : skill :=
  fx_buff_skill "Charge"
    (COne (mkStatus (Fin 30000) (Fin 30000) (Fin 6) (Fin 6) 0 0 (dec 150 100) 0 1 0 0 (Fin 0) 0 true [] None F_DEFAULT F_DEFAULT false false false false)) CNone.
Definition cz_library : library :=
  Eval vm_compute in match foldM add_skill [fx_hit; fx_ogcd; fx_burn; cz_charge] (set_current_job_class (lib_init "test" 100) "test_job") with
                     | Ok l => l | Err _ => lib_init "test" 100 end.
(** The buff, a DoT and a hit; then also the DoT again. *)
Definition cz_start : res builder :=
  and_add (and_add (and_add (rb_init fx_stats cz_library None false false (Some 0) (RWTuple []) DEFAULT_TARGET) (q 0) "Charge" None None) (q 1) "Burn" None None)
    (q 3) "Hit" None None.
Definition cz_more : res builder := and_add cz_start (q 5) "Burn" None None.

Definition cz_b : builder := fst (ran cz_start).
Definition cz_r : builder := snd (ran cz_start).
Definition cz_b' : builder := fst (ran cz_more).
Definition cz_r' : builder := snd (ran cz_more).
Definition cz_d : trackers * queue * list instance := cz_damage cz_library cz_r.
Definition cz_d' : trackers * queue * list instance := cz_damage cz_library cz_r'.
Lemma cz_runs : cz_start = Ok cz_b /\ get_skill_timing cz_b = Ok cz_r /\ cz_more = Ok cz_b' /\ get_skill_timing cz_b' = Ok cz_r'.
Proof. split; [|split; [|split]]; vm_compute; reflexivity. Qed.
Lemma cz_hits :
  get_damage_instances (cz_trackers cz_library) (b_queue cz_r) = Ok (fst (fst cz_d), snd (fst cz_d), snd cz_d)
  /\ get_damage_instances (cz_trackers cz_library) (b_queue cz_r') = Ok (fst (fst cz_d'), snd (fst cz_d'), snd cz_d').
Proof. split; vm_compute; reflexivity. Qed.
Lemma cz_continued b b' : cz_start = Ok b -> cz_more = Ok b' -> continued b b'.
Proof.
  unfold cz_more. intros E E'. rewrite E in E'. eapply and_add_continued; [apply cont_here | | exact E'].
  apply (later_seconds b 5); [|vm_compute; reflexivity]. vm_compute in E. injection E as <-. intros x [<-|[<-|[<-|[]]]]; reflexivity.
Qed.
Lemma cz_built : all_built cz_start.
Proof. unfold cz_start. do 3 apply and_add_built. apply init_built. Qed.
Definition hit_at (i : instance) : bool := di_time i =? 3500.
Definition outline_eqb (a b : Z * string * string * Q) : bool :=
  (fst (fst (fst a)) =? fst (fst (fst b))) && Qeq_bool (snd a) (snd b).
Lemma not_among f l l' c i :
  find f l = Some i -> option_map outline (find f l) = Some c -> existsb (outline_eqb c) (map outline l') = false -> outline_eqb c c = true ->
  In i l /\ ~ In (outline i) (map outline l').
Proof.
  intros H O N E. split; [exact (proj1 (find_some _ _ H))|]. rewrite H in O. injection O as O. rewrite O.
  intros I. rewrite <- not_true_iff_false in N. apply N, existsb_exists. exists c. split; [exact I | exact E].
Qed.
Lemma cz_gains i : find hit_at (hits_before 5000 (snd cz_d)) = Some i -> In i (hits_before 5000 (snd cz_d)) /\ ~ In (outline i) (map outline (hits_before 5000 (snd cz_d'))).
Proof.
  intros H. apply (not_among hit_at _ _ (3500, "Hit", DEFAULT_TARGET, 1%Q) i H); vm_compute; reflexivity.
Qed.

Lemma dots_change_damage :
  exists b b' r r' T new tk tk1 tk1' q1 q1' l l' i,
    built b /\ distinct_times b /\ continued b b' /\ b_fight_start b <> None /\ b_autos b = false
    /\ get_skill_timing b = Ok r /\ get_skill_timing b' = Ok r'
    /\ delayed_single (timeline r') /\ distinct_places (timeline r')
    /\ more_presses r r' new /\ (forall p, In p new -> T <= pr_time p)
    /\ get_damage_instances tk (b_queue r) = Ok (tk1, q1, l) /\ get_damage_instances tk (b_queue r') = Ok (tk1', q1', l')
    /\ In i (hits_before T l) /\ ~ In (outline i) (map outline (hits_before T l')).
Proof.
  destruct cz_runs as (E & R & E' & R'). destruct cz_hits as (D & D').
  destruct (find hit_at (hits_before 5000 (snd cz_d))) as [i|] eqn:Hi; [|vm_compute in Hi; discriminate Hi]. destruct (cz_gains i Hi) as (I & J).
  exists cz_b, cz_b', cz_r, cz_r', 5000, [mkPress 5000 "Burn" "" ""], (cz_trackers cz_library).
  exists (fst (fst cz_d)), (fst (fst cz_d')), (snd (fst cz_d)), (snd (fst cz_d')), (snd cz_d), (snd cz_d'), i.
  split; [exact (cz_built _ E)|].
  split; [unfold distinct_times; replace (map tm_time (b_timed cz_b)) with [0; 1000; 3000] by (vm_compute; reflexivity);
          repeat constructor; cbn; intros H; repeat (destruct H as [H|H]; [discriminate H|]); destruct H|].
  split; [exact (cz_continued _ _ E E')|]. split; [vm_compute; discriminate|]. split; [vm_compute; reflexivity|].
  split; [exact R|]. split; [exact R'|]. split; [apply singles_sound; vm_compute; reflexivity|]. split; [apply apart_sound; vm_compute; reflexivity|].
  split; [vm_compute; reflexivity|]. split; [intros p [<-|[]]; vm_compute; discriminate|].
  split; [exact D|]. split; [exact D'|]. split; [exact I | exact J].
Qed.
