(** * Specification vocabulary for kill times (C40) *)

From Coq Require Import ZArith QArith Qround List String Bool Permutation Sorted.
From Verif Require Import Base Float Types Lookup StatusEffect Stats Library Events Rotation DamageBuild Damage KillTime SpecHit.
Import ListNotations.
Open Scope string_scope.
Open Scope Z_scope.

(** Rows are (time, damage per sample). *)
Definition cell (j : nat) (r : Z * list Q) : Q := nth j (snd r) 0%Q.
(** Damage of sample [j] up to and including time [t]. *)
Definition dealt_by (j : nat) (t : Z) (rows : list (Z * list Q)) : Q :=
  qsum (map (cell j) (filter (fun r => fst r <=? t) rows)).
Definition dies_at (hp : Q) (rows : list (Z * list Q)) (j : nat) (t : Z) : Prop :=
  In t (map fst rows) /\ (hp <= dealt_by j t rows)%Q
  /\ forall t', In t' (map fst rows) -> t' < t -> (dealt_by j t' rows < hp)%Q.
Definition survives (hp : Q) (rows : list (Z * list Q)) (j : nat) : Prop :=
  forall t, In t (map fst rows) -> (dealt_by j t rows < hp)%Q.
Definition fate (hp : Q) (rows : list (Z * list Q)) (j : nat) (o : option Z) : Prop :=
  match o with Some t => dies_at hp rows j t | None => survives hp rows j end.
(** [deaths] holds the fate of samples 0, 1, ... *)
Definition fates (hp : Q) (rows : list (Z * list Q)) (n : nat) (deaths : list (option Z)) : Prop :=
  List.length deaths = n /\ forall j o, nth_error deaths j = Some o -> fate hp rows j o.
Definition somes {A} (l : list (option A)) : list A :=
  List.concat (map (fun o => match o with Some a => [a] | None => [] end) l).
(** Kills in seconds, in the order of the samples, then one None per survivor. *)
Definition reported (deaths : list (option Z)) : list (option Q) :=
  (map (fun t => Some (fdiv (inject_Z t) 1000)) (somes deaths)
   ++ repeat None (List.length deaths - List.length (somes deaths)))%list.
(** What is known of [np.argsort]. *)
Definition sorts (argsort : list Z -> list nat) : Prop :=
  forall ts, Permutation (argsort ts) (seq 0 (List.length ts))
    /\ StronglySorted Z.le (map (fun i => nth i ts 0) (argsort ts)).
(** A not earlier fate. *)
Definition not_earlier (a b : option Z) : Prop :=
  match a, b with Some t, Some t' => t <= t' | None, Some _ => False | _, None => True end.
Definition cells_nonneg (rows : list (Z * list Q)) : Prop := forall r x, In r rows -> In x (snd r) -> (0 <= x)%Q.
(** All hits of a rotation have non-negative multipliers. *)
Definition hits_nonneg (b : builder) : Prop := forall tk b' tk' qu' insts,
  db_init (b_stats b) (b_library b) = Ok tk -> get_skill_timing b = Ok b' ->
  get_damage_instances tk (b_queue b') = Ok (tk', qu', insts) -> Forall mults_nonneg insts.
Definition draws_ok (u : rotation_draws) : Prop :=
  (forall i j, drawn (rd_sample u i j)) /\ forall i j, (0 <= rd_lb u i j)%Q.
