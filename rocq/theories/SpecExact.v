(** * Specification vocabulary: damage in whole numbers (C83, C84)

    The damage formulas over the integers, where every division rounds down.  The numbers
    of the levels and jobs are written out here again, apart from the model's tables. *)

From Coq Require Import ZArith QArith List String Bool.
From Verif Require Import Base Float Types Lookup StatusEffect Stats DamageBuild Damage SpecHit.
Import ListNotations.
Open Scope string_scope.
Open Scope Z_scope.

(** ** Levels and jobs *)

Record table := mkTable {
  base_main : Z; base_sub : Z; base_div : Z; ap_step : Z; ap_step_tank : Z; ten_step : Z
}.
Definition table_at (level : Z) : option table :=
  if level =? 90 then Some (mkTable 390 400 1900 195 156 100)
  else if level =? 100 then Some (mkTable 440 420 2780 237 190 112) else None.

Inductive role := Tank | Healer | Caster | Melee | Ranged.
Definition is_magic (r : role) : bool := match r with Healer | Caster => true | _ => false end.
Definition is_tank_role (r : role) : bool := match r with Tank => true | _ => false end.

(** Attribute modifier, role and weapon delay (hundredths of a second) of each job. *)
Definition roster : list (string * (Z * role * Z)) :=
  [("PLD", (100, Tank, 224)); ("WAR", (105, Tank, 336)); ("DRK", (105, Tank, 296)); ("GNB", (100, Tank, 280));
   ("WHM", (115, Healer, 344)); ("SCH", (115, Healer, 312)); ("AST", (115, Healer, 320)); ("SGE", (115, Healer, 280));
   ("BLM", (115, Caster, 328)); ("SMN", (115, Caster, 312)); ("RDM", (115, Caster, 344)); ("PCT", (115, Caster, 296));
   ("MNK", (110, Melee, 256)); ("DRG", (115, Melee, 280)); ("NIN", (110, Melee, 256)); ("SAM", (112, Melee, 264));
   ("RPR", (115, Melee, 320)); ("VPR", (110, Melee, 264));
   ("BRD", (115, Ranged, 304)); ("MCH", (115, Ranged, 264)); ("DNC", (115, Ranged, 312))].

(** ** Stats in whole numbers *)

Record sheet := mkSheet {
  h_wd : Z; h_delay : option Z; h_main : Z; h_det : Z; h_dh : Z; h_crit : Z; h_speed : Z; h_ten : Z;
  h_roles : Z; h_strength : Z; h_job : string; h_version : string; h_level : Z
}.
Definition gear_of (h : sheet) : gear :=
  mkGear (q (h_wd h)) (match h_delay h with Some z => Some (dec z 100) | None => None end) (q (h_main h)) (q (h_det h))
    (q (h_dh h)) (q (h_crit h)) (q (h_speed h)) (h_job h) (h_version h) (Some (q (h_ten h))) (q (h_roles h))
    (Some (q (h_strength h))) (h_level h).
Definition fits (n : Z) : Prop := 0 <= n <= 20000.
Definition sensible (h : sheet) : Prop :=
  0 <= h_wd h <= 500 /\ match h_delay h with Some z => 0 <= z <= 1000 | None => True end
  /\ fits (h_main h) /\ fits (h_det h) /\ fits (h_dh h) /\ fits (h_crit h) /\ fits (h_speed h) /\ fits (h_ten h)
  /\ 0 <= h_roles h <= 5 /\ fits (h_strength h).
(** A sheet of one of the game's jobs. *)
Definition on_roster (h : sheet) (t : table) (md : Z) (r : role) (delay : Z) : Prop :=
  h_version h <> "test" /\ table_at (h_level h) = Some t
  /\ exists usual, In (h_job h, (md, r, usual)) roster /\ delay = match h_delay h with Some z => z | None => usual end.

(** ** Numbers derived from the stats *)

Definition crit_steps (t : table) (h : sheet) : Z := 200 * (h_crit h - base_sub t) / base_div t.
Definition dh_steps (t : table) (h : sheet) : Z := 550 * (h_dh h - base_sub t) / base_div t.
Definition speed_steps (t : table) (h : sheet) : Z := 130 * (h_speed h - base_sub t) / base_div t.
Definition trait_percent (r : role) : Z := match r with Healer | Caster => 130 | Ranged => 120 | _ => 100 end.
Definition haste_percent (h : sheet) : Z :=
  if String.eqb (h_job h) "MNK" then 20
  else if String.eqb (h_job h) "NIN" then if h_level h =? 100 then 15 else 0
  else 0.
(** The double nearest to [n]/1000. *)
Definition thousandths (n : Z) : Q := fl (n # 1000).
Definition det_of (t : table) (h : sheet) (sure_dh : bool) : Z :=
  1000 + 140 * (h_det h - base_main t) / base_div t
  + (if sure_dh then 140 * (h_dh h - base_sub t) / base_div t else 0).
Definition ten_of (t : table) (h : sheet) : Z := 1000 + ten_step t * (h_ten h - base_sub t) / base_div t.
Definition speed_of (t : table) (h : sheet) : Z := 1000 + speed_steps t h.
Definition weapon_of (t : table) (md : Z) (h : sheet) : Z := base_main t * md / 1000 + h_wd h.
(** Main stat with [a] points from buffs and the party's bonus. *)
Definition party_stat (h : sheet) (a : Z) : Z := (h_main h + a) * (100 + h_roles h) / 100.
Definition step_of (t : table) (r : role) : Z := if is_tank_role r then ap_step_tank t else ap_step t.
Definition power_of (t : table) (r : role) (main : Z) : Z := 100 + step_of t r * (main - base_main t) / base_main t.

(** ** Damage

    [down n d k]: dividing n by d gives k.  [whole] is division rounding down; the
    simulator's doubles [cut]: where a division comes out even they may lose one. *)
Definition whole (n d k : Z) : Prop := k = n / d.
Definition cut (n d k : Z) : Prop := k = n / d \/ (n mod d = 0 /\ k = n / d - 1).

Section Damage.
  Variable down : Z -> Z -> Z -> Prop.
  Variables (t : table) (r : role) (md : Z) (h : sheet).
  (** [a]: points of main stat from buffs; [dh]: a guaranteed direct hit; [p]: potency. *)
  Variables (a : Z) (dh : bool) (p : Z).
  Let det := det_of t h dh.
  Let ap := power_of t r (party_stat h a).
  Let wd := weapon_of t md h.

  Definition tenacity (n k : Z) : Prop := if is_tank_role r then down (n * ten_of t h) 1000 k else k = n.
  Definition direct_hit (b : Z) : Prop :=
    if is_magic r then down (ap * det / 1000 * (wd * p / 100)) 100 b
    else exists k k', down (p * ap / 100 * det) 1000 k /\ tenacity k k' /\ down (k' * wd) 100 b.
  Definition magic_tick (b : Z) : Prop :=
    let n := p * wd / 100 * ap * speed_of t h * det / 1000 in
    b = (if is_tank_role r then n * ten_of t h / 1000 else n) / 1000 / 100.
  Definition physical_tick (b : Z) : Prop :=
    let n := p * ap * det / 100 in
    exists k, (if is_tank_role r then exists j, down (n * ten_of t h) 1000000 j /\ k = j * speed_of t h / 1000
               else exists j, down (n * speed_of t h) 1000 j /\ k = j / 1000)
      /\ b = k * wd / 100.
  (** Autos of casters and healers use strength, not rounded after the party's bonus, and
      no speed; [delay] is the weapon's in hundredths of a second. *)
  Definition auto_power (x : Z) : Prop :=
    if is_magic r
    then exists k, down (ap_step t * (h_strength h * (100 + h_roles h) - 100 * base_main t)) (100 * base_main t) k /\ x = 100 + k
    else x = ap.
  Definition auto_hit (delay b : Z) : Prop :=
    exists x w k k' j n, auto_power x /\ down (wd * delay) 300 w /\ down (p * x / 100 * det) 1000 k /\ tenacity k k'
      /\ down (k' * (if is_magic r then 1000 else speed_of t h)) 100 j /\ down (j * w) 10 n /\ b = n / 100.
  (** Pets have an attribute modifier [pm] of their own, [scale] hundredths of their
      owner's main stat and no party bonus. *)
  Definition pet_hit (pm scale b : Z) : Prop :=
    let main := h_main h - (base_main t * md / 100 - base_main t * pm / 100) + a in
    exists x k k', down (ap_step t * (main * scale - 100 * base_main t)) (100 * base_main t) x
      /\ down (p * (100 + x) / 100 * det) 1000 k /\ tenacity k k' /\ down (k' * weapon_of t pm h) 100 b.

  Definition hit_of (c : dclass) (delay pm scale b : Z) : Prop :=
    match c with
    | DC_DIRECT => direct_hit b
    | DC_MAGICAL_DOT => magic_tick b
    | DC_PHYSICAL_DOT => physical_tick b
    | DC_AUTO => auto_hit delay b
    | DC_PET => pet_hit pm scale b
    | DC_UNKNOWN => False
    end.
End Damage.

(** Effects that add whole points of main stat and no crit or direct hit rate. *)
Definition adds_points (e : status_effects) (a : Z) : Prop :=
  (ef_main_stat_mult e == 1)%Q /\ (ef_main_stat_add e == q a)%Q /\ (ef_crit_rate_add e == 0)%Q /\ (ef_dh_rate_add e == 0)%Q.
(** A damage spec of [p] whole points of potency, with pet numbers [pm] and [scale]. *)
Definition whole_spec (md : Z) (d : damage_spec) (p pm scale : Z) : Prop :=
  (potency d == q p)%Q /\ 0 < p <= 3000 /\ (single_damage_mult d == 1)%Q
  /\ match pet_job_mod_override d with Some x => (x == q pm)%Q | None => pm = md end
  /\ (pet_scalar d == dec scale 100)%Q /\ 0 <= pm <= 200 /\ 0 <= scale <= 200.

(** ** Outcomes

    From a roll [n] of the base damage: a crit adds [bonus] thousandths, a direct hit a
    quarter; then the trait's [trait] percent and the effects' [ps] percents multiply. *)
Definition usual (p : Z) : bool := existsb (Z.eqb p) [95; 100; 105; 120; 130].
Definition percent (n p k : Z) : Prop := if usual p then k = n * p / 100 else cut (n * p) 100 k.
Definition product (ps : list Z) : Z := fold_right Z.mul 1 ps.
Definition percents (n : Z) (ps : list Z) (k : Z) : Prop :=
  match ps with [] => k = n | _ => cut (n * product ps) (100 ^ Z.of_nat (List.length ps)) k end.
Definition outcome_of (bonus trait : Z) (ps : list Z) (crit dh : bool) (n out : Z) : Prop :=
  exists x y z, (if crit then exists k, cut (n * bonus) 1000 k /\ x = n + k else x = n)
    /\ y = (if dh then x + x / 4 else x) /\ percent y trait z /\ percents z ps out.
(** Multiplying by one percentage after the other, in doubles. *)
Definition times (ps : list Z) : Q := fold_left (fun x p => fmul x (dec p 100)) ps 1%Q.
(** A hit of [b] base damage whose trait counts [trait] percent; its buffs multiply by
    [ps] percent and its debuffs by [ps'] percent, together at most 3000000 / 100^n. *)
Definition plain_hit (st : stats) (r : role) (x : instance) (b trait : Z) (ps ps' : list Z) : Prop :=
  exists d y, get_damage_spec (di_skill x) (di_modifier x) = Ok (Some d)
    /\ get_base_damage (di_skill x) (di_modifier x) st (di_effects x) = Ok (Some y) /\ (y == q b)%Q /\ 1 <= b <= 1000000
    /\ match trait_damage_mult_override d with Some t => (t == dec trait 100)%Q | None => trait = trait_percent r end
    /\ 0 <= trait <= 200
    /\ (ef_damage_mult (fst (di_effects x)) == times ps)%Q /\ (ef_damage_mult (snd (di_effects x)) == times ps')%Q
    /\ (List.length (ps ++ ps')%list <= 8)%nat /\ Z.abs (product (ps ++ ps')%list) <= 3000000.
