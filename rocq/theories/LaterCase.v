(** * Rotations whose past changes when they go on *)

From Coq Require Import ZArith QArith List String Bool Lia.
From Verif Require Import Base Float Strings Types Lookup Stats Library StatusEffect Channeling Events Rotation Fixtures
  SpecTimeline SpecRun RunCounter ApiFacts SpecLater.
Import ListNotations.
Open Scope string_scope.
Open Scope Z_scope.

Definition names (l : list press) : list (Z * string) := map (fun p => (pr_time p, pr_name p)) l.
Definition event_times (l : list event) : list (Z * string) :=
  map (fun e => (match ev_secondary e with Some t => t | None => ev_primary e end, sk_name (ev_skill e))) l.

Lemma and_next_continued b b1 name n tg b2 : continued b b1 -> and_next (Ok b1) name n tg = Ok b2 -> continued b b2.
Proof. intros C H. unfold and_next in H. cbn [bind] in H. eapply cont_next; eassumption. Qed.
Lemma and_add_continued b b1 t name m tg b2 :
  continued b b1 -> later_press b1 t -> and_add (Ok b1) t name m tg = Ok b2 -> continued b b2.
Proof. intros C L H. unfold and_add in H. cbn [bind] in H. eapply cont_add; eassumption. Qed.
(** Whole seconds. *)
Lemma later_seconds b n : (forall x, In x (b_timed b) -> tm_time x < 1000 * n) -> fmul 1000 (q n) = q (1000 * n) -> later_press b (q n).
Proof.
  intros H E z (Hz & Hn) x Hx. rewrite E in *. unfold q in *. specialize (H x Hx).
  destruct (Z_le_gt_dec 0 (1000 * n)) as [L|L].
  - destruct Hz as (_ & Hz); [change 0%Q with (inject_Z 0); rewrite <- Zle_Qle; exact L|]. rewrite <- Zlt_Qlt in Hz. lia.
  - destruct Hn as (_ & Hn); [change 0%Q with (inject_Z 0); rewrite <- Zlt_Qlt; lia|]. rewrite <- Zle_Qle in Hn. lia.
Qed.

(** A slow cast; then also an instant that hits before the cast does. *)
Definition lc_cast : res builder := and_add (fx_builder false false None (RWTuple [])) (q 0) "Cast" None None.
Definition lc_cast_more : res builder := and_add lc_cast (q 1) "Quick" None None.
(** A DoT; then also a hit after it has run out. *)
Definition lc_burn : res builder := and_add (fx_builder false true (Some 0) (RWTuple [])) (q 1) "Burn" None None.
Definition lc_burn_more : res builder := and_add lc_burn (q 21) "Hit" None None.

Lemma start_matters :
  exists b b' r r' p, built b /\ distinct_times b /\ continued b b' /\ b_autos b = false /\ b_ignore_trailing b = false
    /\ get_skill_timing b = Ok r /\ get_skill_timing b' = Ok r'
    /\ In p (get_button_press_timing r) /\ ~ In p (get_button_press_timing r').
Proof.
  destruct lc_cast as [b|] eqn:E; [|vm_compute in E; discriminate E].
  destruct lc_cast_more as [b'|] eqn:E'; [|vm_compute in E'; discriminate E'].
  assert (B : built b) by (refine (and_add_built _ _ _ _ _ _ b E); apply init_built).
  assert (C : continued b b').
  { unfold lc_cast_more in E'. rewrite E in E'. eapply and_add_continued; [apply cont_here | | exact E'].
    apply (later_seconds b 1); [|vm_compute; reflexivity]. vm_compute in E. injection E as <-. intros x [<-|[]]. reflexivity. }
  vm_compute in E, E'. injection E as <-. injection E' as <-.
  eexists _, _, _, _, _. split; [exact B|]. split; [repeat constructor; intros []|]. split; [exact C|]. clear B C.
  split; [reflexivity|]. split; [reflexivity|]. split; [vm_compute; reflexivity|]. split; [vm_compute; reflexivity|].
  vm_compute. split; [left; reflexivity|]. intros [H|[H|[]]]; discriminate H.
Qed.
Lemma trailing_changes :
  exists b b' r r' new T e, built b /\ distinct_times b /\ continued b b' /\ b_fight_start b <> None /\ b_autos b = false
    /\ get_skill_timing b = Ok r /\ get_skill_timing b' = Ok r'
    /\ more_presses r r' new /\ (forall p, In p new -> T <= pr_time p)
    /\ In e (before T (timeline r')) /\ ~ In e (before T (timeline r)).
Proof.
  destruct lc_burn as [b|] eqn:E; [|vm_compute in E; discriminate E].
  destruct lc_burn_more as [b'|] eqn:E'; [|vm_compute in E'; discriminate E'].
  assert (B : built b) by (refine (and_add_built _ _ _ _ _ _ b E); apply init_built).
  assert (C : continued b b').
  { unfold lc_burn_more in E'. rewrite E in E'. eapply and_add_continued; [apply cont_here | | exact E'].
    apply (later_seconds b 21); [|vm_compute; reflexivity]. vm_compute in E. injection E as <-. intros x [<-|[]]. reflexivity. }
  vm_compute in E, E'. injection E as <-. injection E' as <-.
  eexists _, _, _, _, [mkPress 21000 "Hit" "" ""], 21000, _. split; [exact B|]. split; [repeat constructor; intros []|]. split; [exact C|]. clear B C.
  split; [discriminate|]. split; [reflexivity|]. split; [vm_compute; reflexivity|]. split; [vm_compute; reflexivity|].
  split; [vm_compute; reflexivity|]. split; [intros p [<-|[]]; reflexivity || (vm_compute; discriminate)|].
  vm_compute. split; [right; right; left; reflexivity|]. intros [H|[H|[]]]; discriminate H.
Qed.
