(** * Specification vocabulary for damage over time (C16-C18) *)

From Coq Require Import ZArith QArith List String Bool Permutation Sorted.
From Verif Require Import Base Float Types Lookup Stats Events Rotation SpecQueue SpecPlay SpecTimeline.
Import ListNotations.
Open Scope Z_scope.

Definition app_snapshot (e : dot_entry) : Z := fst (fst e).
Definition app_time (e : dot_entry) : Z := snd (fst e).
Definition app_number (e : dot_entry) : Z := snd e.

(** The applications of one effect to one target, in the order of the presses. *)
Definition history (target : string) (fu : follow_up) (l : list dot_application) : list dot_entry :=
  map snd (filter (fun x => String.eqb target (fst (fst x)) && follow_up_eqb fu (snd (fst x))) l).

(** Python's [==] tells the effects that occur apart. *)
Definition distinguishable (l : list dot_application) : Prop :=
  forall x y, In x l -> In y l ->
    (follow_up_eqb (snd (fst x)) (snd (fst y)) = true <-> snd (fst x) = snd (fst y)).

(** The [i]-th application comes before the [j]-th: earlier, or at the same time but
    pressed earlier. *)
Definition superseded_by (i : nat) (a : Z) (j : nat) (b : Z) : Prop := a < b \/ (a = b /\ (i < j)%nat).

(** The [i]-th application in history [h] of an effect lasting [dur] ticks at [t].
    [first a] is the first tick of an application at [a]. *)
Definition ticks_at (first : Z -> Z) (dur : Z) (h : list dot_entry) (i : nat) (t : Z) : Prop :=
  exists e, nth_error h i = Some e
    /\ (exists j, 0 <= j /\ t = first (app_time e) + 3000 * j)
    /\ t < app_time e + dur
    /\ forall j e', nth_error h j = Some e' -> superseded_by i (app_time e) j (app_time e') -> t < app_time e'.

(** Dropped because later than the last other event; a last event at 0 counts as none. *)
Definition trailing (last : option Z) (t : Z) : Prop := exists l, last = Some l /\ l <> 0 /\ l < t.

(** A tick as the timeline shows it: number [n] among the ticks of its effect on its
    target, caused by application [e]. *)
Definition tick_entry (fu : follow_up) (target : string) (n : Z) (e : dot_entry) (t : Z) : add_call :=
  plain_add (1000 * app_snapshot e + (app_number e + n)) (app_snapshot e) t (fu_skill fu) default_modifier
    (SFlag (fu_snap_buffs fu), SFlag (fu_snap_debuffs fu)) [target].

(** [ticks] are the ticks of one effect on one target, in order of time. *)
Definition is_ticks (first : Z -> Z) (last : option Z) (dur : Z) (h : list dot_entry) (ticks : list (dot_entry * Z)) : Prop :=
  StronglySorted (fun x y => snd x < snd y) ticks
  /\ forall e t, In (e, t) ticks <->
       (exists i, nth_error h i = Some e /\ ticks_at first dur h i t) /\ ~ trailing last t.

Fixpoint tick_entries (fu : follow_up) (target : string) (n : Z) (l : list (dot_entry * Z)) : list add_call :=
  match l with
  | [] => []
  | (e, t) :: l' => tick_entry fu target n e t :: tick_entries fu target (n + 1) l'
  end.

(** All ticks of a rotation with dot applications [l]. *)
Inductive all_ticks (first : Z -> Z) (last : option Z) (l : list dot_application)
  : list (string * follow_up) -> list add_call -> Prop :=
| at_nil : all_ticks first last l [] []
| at_cons target fu dur ticks ks cs :
    fu_dot fu = Some dur ->
    is_ticks first last dur (history target fu l) ticks ->
    all_ticks first last l ks cs ->
    all_ticks first last l ((target, fu) :: ks) (tick_entries fu target 0 ticks ++ cs).

(** [ks] lists every (target, effect) pair of [l] once. *)
Definition effects_of (l : list dot_application) (ks : list (string * follow_up)) : Prop :=
  NoDup ks /\ forall x, In x ks <-> In x (map fst l).

(** Server ticks come every 3000 ms, one of them at [o]; [t] is the first at or after [start]. *)
Definition server_tick (o start t : Z) : Prop := start <= t < start + 3000 /\ (3000 | t - o).

(** A tick: effect and target, the application (by its place in the history) that
    causes it, and its time. *)
Record tick_label := mkLabel { tl_target : string; tl_effect : follow_up; tl_index : nat; tl_time : Z }.
Definition cause (l : list dot_application) (x : tick_label) : option dot_entry :=
  nth_error (history (tl_target x) (tl_effect x) l) (tl_index x).
(** The timeline's entry for it. *)
Definition is_tick (l : list dot_application) (x : tick_label) (c : add_call) : Prop :=
  exists n e, cause l x = Some e /\ c = tick_entry (tl_effect x) (tl_target x) n e (tl_time x).
(** No effect ticks twice at one time on one target. *)
Definition no_double (xs : list tick_label) : Prop :=
  ForallOrdPairs (fun x y => tl_target x = tl_target y -> tl_effect x = tl_effect y -> tl_time x <> tl_time y) xs.
(** The timeline's entry shows the tick: it snapshots when its application did, hits
    its target then and snapshots what its effect says. *)
Definition shows_tick (l : list dot_application) (x : tick_label) (c : add_call) : Prop :=
  exists e, cause l x = Some e
    /\ ev_primary (entry c) = app_snapshot e /\ effect_time (entry c) (tl_time x)
    /\ ev_targets (entry c) = [tl_target x] /\ ev_skill (entry c) = fu_skill (tl_effect x)
    /\ (tl_time x <> app_snapshot e ->
        ev_snap (entry c) = (SFlag (fu_snap_buffs (tl_effect x)), SFlag (fu_snap_debuffs (tl_effect x)))).

(** Server ticks, if any, are at whole milliseconds. *)
Definition whole_offset (snap : option Q) : Prop :=
  snap = None \/ exists s0 o, snap = Some s0 /\ (fmul 1000 s0 == inject_Z o)%Q /\ Z.abs o <= 2 ^ 51.
(** The tick comes while its application lasts. *)
Definition tick_in_time (snap : option Q) (l : list dot_application) (x : tick_label) : Prop :=
  exists dur e, fu_dot (tl_effect x) = Some dur /\ cause l x = Some e
    /\ tl_time x < app_time e + dur
    /\ (whole_offset snap -> app_time e <= tl_time x)
    /\ (snap = None -> exists k, 0 <= k /\ tl_time x = app_time e + 3000 * k).
(** Ticks of two applications of an effect do not interleave: those of one come before
    the other is applied. *)
Definition in_turn (snap : option Q) (l : list dot_application) (x y : tick_label) : Prop :=
  tl_target x = tl_target y -> tl_effect x = tl_effect y -> tl_index x <> tl_index y ->
  (exists e, cause l y = Some e /\ tl_time x < app_time e /\ (whole_offset snap -> app_time e <= tl_time y))
  \/ (exists e, cause l x = Some e /\ tl_time y < app_time e /\ (whole_offset snap -> app_time e <= tl_time x)).
