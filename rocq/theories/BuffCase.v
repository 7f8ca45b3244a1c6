(** * Rotations for C86 *)

From Coq Require Import ZArith QArith List String Bool Lia Permutation.
From Verif Require Import Base BaseFacts Float Strings Types Lookup Stats Library StatusEffect Events Rotation DamageBuild Fixtures SpecGame SpecPlay SpecTimeline SpecRun SpecLater
  SpecReplay SpecShuffle SpecIdle SpecCause SpecGear RunCounter ReplayCase ShuffleCase CauseCase IdleCase SpecBuff.
Import ListNotations.
Open Scope string_scope.
Open Scope Z_scope.

(** Boosts and weakenings come from outside. *)
Definition bf_extra (n : string) : bool := String.eqb n "Boost" || String.eqb n "Weaken".
Definition bf_l : list instr :=
  [PressAt 0 (tap "Boost" None); PressAt (dec 5 10) (tap "Burn" None); NextPress (tap "Hit" None) 2; PressAt (dec 21 10) (tap "Quick" None);
   PressAt 4 (tap "Weaken" None); PressAt (dec 62 10) (tap "Quick" None)].
Definition bf_start : res builder := rb_init fx_stats fx_library None false false None (RWTuple []) DEFAULT_TARGET.
Definition bf_run (l : list instr) : res builder := let* b := bf_start in follow b l.
Definition bf_hits (lib : library) (l : list instr) : res (list instance) := hits_with fx_stats lib None false false None (RWTuple []) DEFAULT_TARGET l.
Definition bf_b0 : builder := fst (ran bf_start).
Definition bf_b : builder := fst (ran (bf_run bf_l)).
Definition bf_r : builder := snd (ran (bf_run bf_l)).
Lemma bf_ok : rb_init fx_stats fx_library None false false None (RWTuple []) DEFAULT_TARGET = Ok bf_b0 /\ follow bf_b0 bf_l = Ok bf_b /\ get_skill_timing bf_b = Ok bf_r.
Proof. split; [vm_compute; reflexivity|]. split; vm_compute; reflexivity. Qed.
Lemma bf_distinct : distinct_times bf_b.
Proof. vm_compute. repeat constructor; simpl; intuition discriminate. Qed.
Lemma bf_skills : skills_of bf_b = [fx_hit; fx_hit; fx_buff; fx_burn; fx_ogcd; fx_debuff; fx_ogcd] /\ map sq_skill (b_sequence bf_b) = [fx_hit; fx_hit].
Proof. split; vm_compute; reflexivity. Qed.
Lemma bf_resources : get_all_resource_settings (b_library bf_b) (st_job (b_stats bf_b)) = Ok [] /\ get_status_effect_priority (b_library bf_b) (st_job (b_stats bf_b)) = Ok [].
Proof. split; vm_compute; reflexivity. Qed.

Definition plain_skill (ok : status_spec -> Prop) (extra : string -> bool) (s : skill) : Prop :=
  exists fus, sk_follow_ups s = TTuple fus /\ Forall (fun fu => sk_follow_ups (fu_skill fu) = TTuple []) fus
     /\ Forall (fun p => extra (sk_name p) = false /\ Forall (fun e => (0 <= damage_mult e)%Q /\ ok e) (SpecGame.effects_of p)) (s :: map fu_skill fus).
Lemma plain_part ok (extra : string -> bool) b l :
  skills_of b = l -> Forall (fun s : skill => if extra (sk_name s) then support s else plain_skill ok extra s) l ->
  forall s p, In s (skills_of b) -> extra (sk_name s) = false -> part_of p s ->
    extra (sk_name p) = false /\ forall e, In e (SpecGame.effects_of p) -> (0 <= damage_mult e)%Q /\ ok e.
Proof.
  intros S F s p I E Pt. rewrite Forall_forall in F. rewrite S in I. specialize (F s I). rewrite E in F. destruct F as (fus & E1 & F1 & F2). rewrite Forall_forall in F2.
  assert (K : In p (s :: map fu_skill fus)) by (destruct (simple_parts p s fus E1 F1 Pt) as [->|J]; [left; reflexivity | right; exact J]).
  destruct (F2 p K) as (N & K'). split; [exact N|]. rewrite Forall_forall in K'. exact K'.
Qed.
Lemma plain_only ok (extra : string -> bool) b l :
  skills_of b = l -> Forall (fun s : skill => extra (sk_name s) = false) (map sq_skill (b_sequence b)) ->
  Forall (fun s : skill => if extra (sk_name s) then support s else plain_skill ok extra s) l -> only_support extra b.
Proof.
  intros S Q F. pose proof (plain_part ok extra b l S F) as K. rewrite Forall_forall in F, Q. split; [|split].
  - intros x I. apply Q, in_map, I.
  - intros s I E. rewrite S in I. specialize (F s I). rewrite E in F. exact F.
  - intros s p I E Pt. destruct (K s p I E Pt) as (N & M). split; [exact N|]. intros e Ie. exact (proj1 (M e Ie)).
Qed.
Definition endless (e : status_spec) : Prop := num_uses e = Inf /\ max_num_uses e = Inf.
Lemma plain_uncounting (extra : string -> bool) b l :
  skills_of b = l -> get_all_resource_settings (b_library b) (st_job (b_stats b)) = Ok [] ->
  Forall (fun s : skill => if extra (sk_name s) then support s else plain_skill endless extra s) l -> uncounting extra b.
Proof.
  intros S R F. pose proof (plain_part endless extra b l S F) as K. split.
  - intros s p e n I E Pt Ie _. left. exact (proj2 (proj2 (K s p I E Pt) e Ie)).
  - intros rs n cfg a E I. rewrite R in E. injection E as <-. destruct I.
Qed.
Lemma plain_unranking extra b : get_status_effect_priority (b_library b) (st_job (b_stats b)) = Ok [] -> unranking extra b.
Proof. intros P p n E I. rewrite P in E. injection E as <-. destruct I. Qed.
Lemma fx_support : support fx_buff /\ support fx_debuff.
Proof.
  split; (split; [intros m; repeat split|]; intros e [<-|[]]; vm_compute; repeat split; discriminate).
Qed.
Lemma bf_support : with_support bf_extra bf_b.
Proof.
  destruct bf_skills as (S & Q), bf_resources as (R & P). 
  assert (F : Forall (fun s => if bf_extra (sk_name s) then support s else plain_skill endless bf_extra s) [fx_hit; fx_hit; fx_buff; fx_burn; fx_ogcd; fx_debuff; fx_ogcd]).
  2:{ split; [|split]; [apply (plain_only endless _ _ _ S); [rewrite Q; repeat constructor|exact F] | apply (plain_uncounting _ _ _ S R F) | apply (plain_unranking _ _ P)]. }
  assert (K : forall s, In s [fx_hit; fx_burn; fx_ogcd] -> plain_skill endless bf_extra s)
    by (intros s [<-|[<-|[<-|[]]]]; eexists; (split; [reflexivity|]; split; repeat constructor)).
  repeat apply Forall_cons; [| | | | | | |constructor];
    first [exact (K fx_hit (or_introl eq_refl)) | exact (K fx_burn (or_intror (or_introl eq_refl))) | exact (K fx_ogcd (or_intror (or_intror (or_introl eq_refl))))
          | exact (proj1 fx_support) | exact (proj2 fx_support)].
Qed.
Definition orderlyb (e : event) : bool :=
  (-500 <? ev_priority e - 1000 * ev_primary e) && (ev_priority e - 1000 * ev_primary e <? 500)
  && match ev_secondary e with Some app => (ev_primary e <=? app) && Nat.eqb (List.length (ev_targets e)) 1 | None => true end.
Lemma orderlyb_sound l : forallb orderlyb l = true -> Forall orderly l.
Proof.
  rewrite forallb_forall, Forall_forall. intros H e I. specialize (H e I). unfold orderlyb in H. rewrite !andb_true_iff, !Z.ltb_lt in H. destruct H as ((A & B) & C).
  split; [lia|]. intros app E. rewrite E in C. apply andb_true_iff in C as (C & D). split; [lia | apply Nat.eqb_eq, D].
Qed.
Lemma bf_tidy : Forall orderly (timeline bf_r) /\ distinct_places (timeline bf_r).
Proof. split; [apply orderlyb_sound; vm_compute; reflexivity | apply apart_sound; vm_compute; reflexivity]. Qed.
Definition hits_of (h : res (list instance)) : list instance := match h with Ok l => l | Err _ => [] end.
Definition bf_with : list instance := hits_of (bf_hits fx_library bf_l).
Definition bf_without : list instance := hits_of (bf_hits fx_library (unsupported bf_extra bf_b0 bf_l)).
Lemma bf_damage :
  hits_with fx_stats fx_library None false false None (RWTuple []) DEFAULT_TARGET bf_l = Ok bf_with
  /\ hits_with fx_stats fx_library None false false None (RWTuple []) DEFAULT_TARGET (unsupported bf_extra bf_b0 bf_l) = Ok bf_without.
Proof. split; vm_compute; reflexivity. Qed.
Definition bonuses (i : instance) : Z * string * Q := (di_time i, sk_name (di_skill i), Qred (ef_damage_mult (fst (di_effects i)) * ef_damage_mult (snd (di_effects i)))).
Lemma bf_shown :
  map bonuses bf_without = [(0, "Hit", 1%Q); (400, "Burn (tick)", 1%Q); (400, "Burn", 1%Q); (1600, "Quick", 1%Q); (2440, "Hit", 1%Q); (3400, "Burn (tick)", 1%Q);
    (5700, "Quick", 1%Q); (6400, "Burn (tick)", 1%Q); (9400, "Burn (tick)", 1%Q); (12400, "Burn (tick)", 1%Q)]
  /\ map bonuses bf_with = let boost := dec 110 100 in [(0, "Hit", 1%Q); (400, "Burn (tick)", boost); (400, "Burn", boost); (1600, "Quick", boost); (2440, "Hit", boost); (3400, "Burn (tick)", boost);
    (5700, "Quick", Qred (boost * dec 105 100)); (6400, "Burn (tick)", boost); (9400, "Burn (tick)", boost); (12400, "Burn (tick)", boost)].
Proof. split; vm_compute; reflexivity. Qed.

(** *** A buff with one use, for any skill: the further buff takes it. *)
Definition bc_charge : skill :=
  fx_buff_skill "Charge"
    (COne (mkStatus (Fin 30000) (Fin 30000) (Fin 1) (Fin 1) 0 0 (dec 150 100) 0 1 0 0 (Fin 0) 0 true [] None F_DEFAULT F_DEFAULT false false false false)) CNone.
Definition bc_library : library := Eval vm_compute in match add_skill fx_library bc_charge with Ok l => l | Err _ => fx_library end.
Definition bc_l : list instr := [PressAt 0 (tap "Charge" None); PressAt 1 (tap "Boost" None); PressAt 2 (tap "Quick" None)].
Definition bc_without : list instr := [PressAt 0 (tap "Charge" None); PressAt 2 (tap "Quick" None)].
Definition bx_b0 (lib : library) : builder := fst (ran (rb_init fx_stats lib None false false None (RWTuple []) DEFAULT_TARGET)).
Definition bx_run (lib : library) : res builder := let* b := rb_init fx_stats lib None false false None (RWTuple []) DEFAULT_TARGET in follow b bc_l.
Definition bx_b (lib : library) : builder := fst (ran (bx_run lib)).
Definition bx_r (lib : library) : builder := snd (ran (bx_run lib)).
Definition bx_with (lib : library) : list instance := hits_of (bf_hits lib bc_l).
Definition bx_without (lib : library) : list instance := hits_of (bf_hits lib bc_without).
Lemma lone_hit x x' : boosted_hits [x] [x'] -> (ef_damage_mult (fst (di_effects x)) <= ef_damage_mult (fst (di_effects x')))%Q.
Proof.
  intros (a & a' & A & A' & B). apply Permutation_length_1_inv in A, A'. subst a a'. inversion B as [|? ? ? ? H _]; subst.
  destruct H as (_ & _ & _ & _ & ((_ & _ & M & _) & _) & _). exact M.
Qed.
Definition lowered (l l' : list instance) : bool :=
  match l, l' with [x], [x'] => negb (Qle_bool (ef_damage_mult (fst (di_effects x))) (ef_damage_mult (fst (di_effects x')))) | _, _ => false end.
Lemma lowered_sound l l' : lowered l l' = true -> ~ boosted_hits l l'.
Proof.
  destruct l as [|x [|]], l' as [|x' [|]]; try discriminate. cbn. intros H B. apply lone_hit, Qle_bool_iff in B. rewrite B in H. discriminate.
Qed.
Definition bx_fine (lib : library) : Prop :=
  rb_init fx_stats lib None false false None (RWTuple []) DEFAULT_TARGET = Ok (bx_b0 lib) /\ follow (bx_b0 lib) bc_l = Ok (bx_b lib) /\ distinct_times (bx_b lib)
  /\ get_skill_timing (bx_b lib) = Ok (bx_r lib) /\ Forall orderly (timeline (bx_r lib)) /\ distinct_places (timeline (bx_r lib))
  /\ bf_hits lib (unsupported bf_extra (bx_b0 lib) bc_l) = Ok (bx_without lib) /\ bf_hits lib bc_l = Ok (bx_with lib) /\ ~ boosted_hits (bx_without lib) (bx_with lib).
Ltac fine :=
  split; [vm_compute; reflexivity|]; split; [vm_compute; reflexivity|]; split; [vm_compute; repeat constructor; simpl; intuition discriminate|];
  split; [vm_compute; reflexivity|]; split; [apply orderlyb_sound; vm_compute; reflexivity|]; split; [apply apart_sound; vm_compute; reflexivity|];
  split; [vm_compute; reflexivity|]; split; [vm_compute; reflexivity|]; apply lowered_sound; vm_compute; reflexivity.
Lemma bc_fine : bx_fine bc_library.
Proof. fine. Qed.
Lemma bc_supports : only_support bf_extra (bx_b bc_library) /\ unranking bf_extra (bx_b bc_library).
Proof.
  split; [|apply plain_unranking; vm_compute; reflexivity].
  apply (plain_only (fun _ => True) _ _ [bc_charge; fx_buff; fx_ogcd]); [vm_compute; reflexivity | vm_compute; constructor|].
  constructor; [|constructor; [exact (proj1 fx_support)|constructor; [|constructor]]]; (eexists; split; [reflexivity|]; split; repeat constructor; vm_compute; discriminate).
Qed.
Lemma bc_shown :
  option_map (map bonuses) (match bf_hits bc_library bc_l with Ok l => Some l | Err _ => None end) = Some [(0, "Quick", dec 110 100)]
  /\ option_map (map bonuses) (match bf_hits bc_library bc_without with Ok l => Some l | Err _ => None end) = Some [(0, "Quick", dec 150 100)].
Proof. split; vm_compute; reflexivity. Qed.

(** *** A priority: only the first named of the effects counts. *)
Definition bp_charge : skill := fx_buff_skill "Charge" (COne (fx_status 30000 (dec 150 100))) CNone.
Definition bp_library : library :=
  Eval vm_compute in match (let* l := add_skill fx_library bp_charge in set_status_effect_priority l ["Boost"; "Charge"]) with Ok l => l | Err _ => fx_library end.
Lemma bp_shown :
  option_map (map bonuses) (match bf_hits bp_library bc_l with Ok l => Some l | Err _ => None end) = Some [(0, "Quick", dec 110 100)]
  /\ option_map (map bonuses) (match bf_hits bp_library bc_without with Ok l => Some l | Err _ => None end) = Some [(0, "Quick", dec 150 100)].
Proof. split; vm_compute; reflexivity. Qed.
Lemma bp_fine : bx_fine bp_library.
Proof. fine. Qed.
Lemma bp_supports : only_support bf_extra (bx_b bp_library) /\ uncounting bf_extra (bx_b bp_library).
Proof.
  assert (S : skills_of (bx_b bp_library) = [bp_charge; fx_buff; fx_ogcd]) by (vm_compute; reflexivity).
  assert (F : Forall (fun s => if bf_extra (sk_name s) then support s else plain_skill endless bf_extra s) [bp_charge; fx_buff; fx_ogcd]).
  { constructor; [|constructor; [exact (proj1 fx_support)|constructor; [|constructor]]]; (eexists; split; [reflexivity|]; split; repeat constructor; vm_compute; discriminate). }
  split; [apply (plain_only endless _ _ _ S); [vm_compute; constructor|exact F]|]. apply (plain_uncounting _ _ _ S); [vm_compute; reflexivity | exact F].
Qed.
Lemma counted_refuted : exists extra st lib snap start w target b0 l b r hits hits',
  rb_init st lib snap false false start w target = Ok b0 /\ follow b0 l = Ok b /\ only_support extra b /\ unranking extra b /\ distinct_times b
  /\ get_skill_timing b = Ok r /\ Forall orderly (timeline r) /\ distinct_places (timeline r)
  /\ hits_with st lib snap false false start w target (unsupported extra b0 l) = Ok hits
  /\ hits_with st lib snap false false start w target l = Ok hits' /\ ~ boosted_hits hits hits'.
Proof.
  destruct bc_fine as (A & B & C & D & E & F & G & H & I), bc_supports as (S & T).
  exists bf_extra, fx_stats, bc_library, None, None, (RWTuple []), DEFAULT_TARGET, (bx_b0 bc_library), bc_l, (bx_b bc_library), (bx_r bc_library), (bx_without bc_library), (bx_with bc_library).
  split; [exact A|]. split; [exact B|]. split; [exact S|]. split; [exact T|]. split; [exact C|]. split; [exact D|]. split; [exact E|]. split; [exact F|]. split; [exact G|]. split; [exact H|exact I].
Qed.
Lemma ranked_refuted : exists extra st lib snap start w target b0 l b r hits hits',
  rb_init st lib snap false false start w target = Ok b0 /\ follow b0 l = Ok b /\ only_support extra b /\ uncounting extra b /\ distinct_times b
  /\ get_skill_timing b = Ok r /\ Forall orderly (timeline r) /\ distinct_places (timeline r)
  /\ hits_with st lib snap false false start w target (unsupported extra b0 l) = Ok hits
  /\ hits_with st lib snap false false start w target l = Ok hits' /\ ~ boosted_hits hits hits'.
Proof.
  destruct bp_fine as (A & B & C & D & E & F & G & H & I), bp_supports as (S & T).
  exists bf_extra, fx_stats, bp_library, None, None, (RWTuple []), DEFAULT_TARGET, (bx_b0 bp_library), bc_l, (bx_b bp_library), (bx_r bp_library), (bx_without bp_library), (bx_with bp_library).
  split; [exact A|]. split; [exact B|]. split; [exact S|]. split; [exact T|]. split; [exact C|]. split; [exact D|]. split; [exact E|]. split; [exact F|]. split; [exact G|]. split; [exact H|exact I].
Qed.
