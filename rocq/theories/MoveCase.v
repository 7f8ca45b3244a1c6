(** * Rotations whose outcome depends on where time 0 is *)

From Coq Require Import ZArith QArith Qround List String Bool Lia.
From Verif Require Import Base Float Strings Types Lookup Stats Library StatusEffect Channeling Events Rotation DamageBuild Damage Fixtures SpecMove MoveDamage.
Import ListNotations.
Open Scope string_scope.
Open Scope Z_scope.

(** A resource that runs out after 15 s, a skill that grants it and one that is stronger
    while it lasts. *)
Definition heat_settings : jr_settings := mkJrSettings 1 ["Spend"] (Fin 15000) false.
Definition charge : skill :=
  mkSkill "Charge" CNone (COne (fx_timing 0 650 0)) CNone CNone CNone (TTuple [mkJr "Heat" (Change 1) Inf true false]) (TTuple []) [] false []
    true (TTuple []) "".
Definition spend : skill :=
  mkSkill "Spend" (CDict [([], Some (fx_damage 100)); (["Heat"], Some (fx_damage 500))]) (COne (fx_timing 0 650 0)) CNone CNone CNone (TTuple [])
    (TTuple []) [] false [] true (TTuple []) "".
Definition heat_library_res : res library :=
  let* l := foldM add_skill [charge; spend; fx_hit; fx_burn] (set_current_job_class (lib_init "test" 100) "test_job") in
  lib_add_resource l "Heat" heat_settings.
Definition heat_library : library :=
  Eval vm_compute in match heat_library_res with Ok l => l | Err _ => lib_init "test" 100 end.
Definition heat_rotation (start : Z) (t1 t2 : Q) : res builder :=
  let* b := rb_init fx_stats heat_library None false false (Some start) (RWTuple []) DEFAULT_TARGET in
  let* b := add b t1 "Charge" None None None in
  add b t2 "Spend" None None None.
(** A DoT alone. *)
Definition burn_rotation (trailing : bool) (start : Z) (t : Q) : res builder :=
  let* b := rb_init fx_stats fx_library None false trailing (Some start) (RWTuple []) DEFAULT_TARGET in
  add b t "Burn" None None None.
Definition zero_draws : nat -> nat -> draws := fun _ _ => (0, 0, 0)%Q.
Definition damage_of (b : res builder) : res (list Z * list Z) :=
  let* b := b in
  let* r := report_of b 1 zero_draws zero_draws in
  Ok (map Qfloor (rp_expected r), map Qfloor (rp_damage r)).

Lemma report_differs (x x' : res builder) b b' :
  x = Ok b -> x' = Ok b' -> damage_of x <> damage_of x' -> report_of b' 1 zero_draws zero_draws <> report_of b 1 zero_draws zero_draws.
Proof. intros -> -> H E. apply H. unfold damage_of. cbn [bind]. rewrite E. reflexivity. Qed.
Lemma expiry_matters :
  exists d b b' n u u', moved d b b' /\ plain_dots b /\ is_ok (report_of b n u u') = true /\ is_ok (report_of b' n u u') = true
    /\ report_of b' n u u' <> report_of b n u u'.
Proof.
  assert (exists b, heat_rotation 0 (q 0) (q 20) = Ok b) as (b & E) by (eexists; vm_compute; reflexivity).
  assert (exists b', heat_rotation 1000 (q 1) (q 21) = Ok b') as (b' & E') by (eexists; vm_compute; reflexivity).
  exists 1000, b, b', 1%nat, zero_draws, zero_draws.
  assert (D : report_of b' 1 zero_draws zero_draws <> report_of b 1 zero_draws zero_draws)
    by (apply (report_differs _ _ _ _ E E'); vm_compute; discriminate).
  assert (A : is_ok (let* c := heat_rotation 0 (q 0) (q 20) in report_of c 1 zero_draws zero_draws) = true) by (vm_compute; reflexivity).
  assert (A' : is_ok (let* c := heat_rotation 1000 (q 1) (q 21) in report_of c 1 zero_draws zero_draws) = true) by (vm_compute; reflexivity).
  rewrite E in A. rewrite E' in A'. cbn [bind] in A, A'.
  split; [|split; [|split; [exact A|split; [exact A'|exact D]]]]; clear D A A'; vm_compute in E, E'; injection E as <-; injection E' as <-.
  - split; [repeat (split; [reflexivity|]); reflexivity|]. split; [eexists; split; reflexivity|constructor].
  - split; reflexivity.
Qed.
Lemma trailing_matters :
  exists d b b' n u u', moved d b b' /\ b_snap_dots b = None /\ lasting_resources (b_library b) (st_job (b_stats b))
    /\ is_ok (report_of b n u u') = true /\ is_ok (report_of b' n u u') = true
    /\ report_of b' n u u' <> report_of b n u u'.
Proof.
  assert (exists b, burn_rotation true (-400) (dec (-4) 10) = Ok b) as (b & E) by (eexists; vm_compute; reflexivity).
  assert (exists b', burn_rotation true 600 (dec 6 10) = Ok b') as (b' & E') by (eexists; vm_compute; reflexivity).
  exists 1000, b, b', 1%nat, zero_draws, zero_draws.
  assert (D : report_of b' 1 zero_draws zero_draws <> report_of b 1 zero_draws zero_draws)
    by (apply (report_differs _ _ _ _ E E'); vm_compute; discriminate).
  assert (A : is_ok (let* c := burn_rotation true (-400) (dec (-4) 10) in report_of c 1 zero_draws zero_draws) = true) by (vm_compute; reflexivity).
  assert (A' : is_ok (let* c := burn_rotation true 600 (dec 6 10) in report_of c 1 zero_draws zero_draws) = true) by (vm_compute; reflexivity).
  rewrite E in A. rewrite E' in A'. cbn [bind] in A, A'.
  split; [|split; [|split; [|split; [exact A|split; [exact A'|exact D]]]]]; clear D A A'; vm_compute in E, E'; injection E as <-; injection E' as <-.
  - split; [repeat (split; [reflexivity|]); reflexivity|]. split; [eexists; split; reflexivity|constructor].
  - reflexivity.
  - intros rs n c X I. vm_compute in X. injection X as <-. destruct I.
Qed.
