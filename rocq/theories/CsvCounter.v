(** * Counterexamples for C49 and C50 *)

From Coq Require Import ZArith QArith List String Bool.
From Verif Require Import Base Float Types Stats Library Rotation Csv SpecCsv Fixtures.
Import ListNotations.
Open Scope string_scope.
Open Scope Z_scope.

(** The last snapshot is at 2.01 s, and 1000 * 2.01 is less than 2010. *)
Definition lx_per : list per_skill := [mkPer 0 100; mkPer 2010 50].
Lemma last_entry_refuted :
  ~ (forall l k rs t v, 0 < k -> dps_at_intervals l k = Ok (rs ++ [(t, v)])%list -> (v == dealt l)%Q).
Proof.
  intros H. assert (X : dps_at_intervals lx_per 10 = Ok ([] ++ [(fdiv (q 2010) (q 1000), snapshots_before lx_per (fdiv (q 2010) (q 1000)))])%list).
  { vm_compute. reflexivity. }
  specialize (H lx_per 10 _ _ _ eq_refl X). vm_compute in H. discriminate H.
Qed.

Definition lx_party : list party_skill := [mkParty 1 "Boost" "test_job" (Some (modifier_with "Buffed"))].
Lemma party_twice :
  ~ (forall b party skills b', example_rotation b party skills = Ok b' ->
       List.length (b_timed b') = (List.length (b_timed b) + List.length party)%nat).
Proof.
  intros H.
  assert (X : match (let* b := fx_builder false false (Some 0) (RWTuple []) in example_rotation b lx_party []) with
              | Ok b' => List.length (b_timed b') = 2%nat | Err _ => False end) by (vm_compute; reflexivity).
  destruct (fx_builder false false (Some 0) (RWTuple [])) as [b|] eqn:B; [|exact X]. cbn [bind] in X.
  destruct (example_rotation b lx_party []) as [b'|] eqn:E; [|exact X].
  pose proof (H b lx_party [] b' E) as L. rewrite X in L.
  assert (Y : match fx_builder false false (Some 0) (RWTuple []) with Ok b => List.length (b_timed b) = 0%nat | Err _ => False end)
    by (vm_compute; reflexivity).
  rewrite B in Y. rewrite Y in L. cbn in L. discriminate.
Qed.
