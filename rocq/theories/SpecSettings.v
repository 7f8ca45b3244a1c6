(** * Specification vocabulary for a builder's settings (C18, C20, C22) *)

From Coq Require Import ZArith QArith List String Bool.
From Verif Require Import Base Float Types Lookup Rotation.
Import ListNotations.
Open Scope Z_scope.

(** The downtime asked for a target, in seconds. *)
Definition asked (w : raw_windows) (target : string) : list (Q * Q * option dclass) :=
  match w with
  | RWTuple l => l
  | RWDict d => match dget target d with Some l => l | None => [] end
  end.

(** [t] ms lie in one of these windows for damage class [c]; seconds are turned into ms
    by a multiplication of doubles. *)
Definition asked_at (l : list (Q * Q * option dclass)) (t : Z) (c : dclass) : Prop :=
  exists s e k, In (s, e, k) l /\ (fl (s * 1000) <= inject_Z t)%Q /\ (inject_Z t < fl (e * 1000))%Q /\ (k = None \/ k = Some c).

(** [f] after a call, unless it raises. *)
Definition then_set (f : builder -> builder) (r : res builder) : res builder := match r with Ok b => Ok (f b) | Err e => Err e end.
