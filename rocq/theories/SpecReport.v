(** * Specification vocabulary for reports (C79-C81) *)

From Coq Require Import ZArith QArith List String Bool Permutation Sorted.
From Verif Require Import Base Float Strings Types Lookup StatusEffect Stats Library Events Rotation DamageBuild Damage Report SpecHit.
Import ListNotations.
Open Scope string_scope.
Open Scope Z_scope.

(** [xs] is [l] in the order of time, those at one time in the order given. *)
Definition in_time_order (l xs : list instance) : Prop :=
  Permutation l xs /\ StronglySorted (fun x y => di_time x <= di_time y) xs
  /\ forall t, filter (fun x => di_time x =? t) xs = filter (fun x => di_time x =? t) l.

Definition sum (l : list Q) : Q := fold_right Qplus 0%Q l.
(** The mean of an outcome is the middle of its range, that of a hit the mean of its
    outcomes; the variance is that of the range (uniform) and of the outcome. *)
Definition middle (o : outcome) : Q := ((o_low o + o_high o) * (1 # 2))%Q.
Definition mean_of (os : list outcome) : Q := sum (map (fun o => o_prob o * middle o)%Q os).
Definition spread_of (os : list outcome) : Q :=
  (sum (map (fun o => o_prob o * ((o_high o - o_low o) * (o_high o - o_low o) * (1 # 12) + middle o * middle o))%Q os)
   - mean_of os * mean_of os)%Q.

(** A line of the report is that of an instance with the ranges [os]. *)
Definition line_of (x : instance) (os : list outcome) (p : per_damage) : Prop :=
  pd_time p = di_time x /\ pd_name p = sk_name (di_skill x) /\ pd_cond p = sm_cond (di_modifier x)
  /\ pd_effects p = di_effects x /\ pd_id p = di_id x /\ pd_target p = di_target x
  /\ (exists d, get_damage_spec (di_skill x) (di_modifier x) = Ok (Some d) /\ pd_potency p = potency d /\ pd_class p = damage_class d)
  /\ (pd_expected p == mean_of os)%Q /\ (pd_variance p == spread_of os)%Q.

(** The rates and the trait of an instance. *)
Definition rates_of (st : stats) (x : instance) (crit dh trait : Q) : Prop :=
  exists d bonus, get_damage_spec (di_skill x) (di_modifier x) = Ok (Some d)
    /\ crit_rates_and_bonuses st d (di_modifier x) (di_effects x) = Ok (dh, crit, bonus)
    /\ trait = match trait_damage_mult_override d with Some t => t | None => ps_trait_damage_mult st end.

(** Seconds from the first to the last of instances in order of time. *)
Definition seconds (xs : list instance) : Q :=
  match map di_time xs with [] => 0%Q | t :: ts => fdiv (inject_Z (last (t :: ts) 0 - t)) 1000 end.

(** [p'] is [p] with a snapshot time [t]. *)
Definition but_snapshot (p p' : per_damage) (t : Z) : Prop :=
  pd_snapshot p' = Some t
  /\ pd_time p' = pd_time p /\ pd_name p' = pd_name p /\ pd_potency p' = pd_potency p /\ pd_cond p' = pd_cond p /\ pd_effects p' = pd_effects p
  /\ pd_expected p' = pd_expected p /\ pd_variance p' = pd_variance p /\ pd_id p' = pd_id p /\ pd_target p' = pd_target p /\ pd_class p' = pd_class p.

(** Draws for some rows, then for others. *)
Definition first_then (n : nat) (u v : nat -> nat -> draws) : nat -> nat -> draws :=
  fun i j => if Nat.ltb i n then u i j else v (i - n)%nat j.

(** The index draws of [np.random.choice(x, k)] for the trials. *)
Definition valid_picks (x : list Q) (pick : nat -> nat -> nat) : Prop := forall i j, (pick i j < List.length x)%nat.
