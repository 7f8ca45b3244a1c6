(** * Specification vocabulary for the damage builder (C31-C33, C47, C48, C51)

    What one event of the timeline does, as the calls it makes to the trackers
    (whose answers C24-C29 specify) and the hits it deals.  Queues, heaps and the
    loop do not occur here. *)

From Coq Require Import ZArith QArith List String Bool Permutation Sorted.
From Verif Require Import Base Strings Types Lookup StatusEffect JobResource Combo Events Rotation DamageBuild SpecQueue SpecRun.
Import ListNotations.
Open Scope string_scope.
Open Scope Z_scope.

(** ** Calls to the trackers, with their answers *)

Inductive call :=
| Expires (t : Z)
| AsksBuffs (t : Z) (s : skill) (answer : status_effects) (names : string)
| AsksDebuffs (t : Z) (s : skill) (target : string) (answer : status_effects) (names : string)
| AsksResources (t : Z) (s : skill) (names : string)
| AddsResources (t : Z) (s : skill) (m : modifier)
| AsksCombo (t : Z) (s : skill) (m : modifier) (names : string)
| Grants (t : Z) (s : skill) (m : modifier) (targets : list string).

Definition performs (tk : trackers) (c : call) (tk' : trackers) : Prop :=
  match c with
  | Expires t => tk' = mkTrackers (expire_status_effects t (tk_se tk)) (tk_jr tk) (tk_combo tk)
  | AsksBuffs t s e names =>
      exists se, compile_buffs (tk_se tk) t s = Ok (se, (e, names)) /\ tk' = mkTrackers se (tk_jr tk) (tk_combo tk)
  | AsksDebuffs t s x e names =>
      exists se, compile_debuffs (tk_se tk) t s x = Ok (se, (e, names)) /\ tk' = mkTrackers se (tk_jr tk) (tk_combo tk)
  | AsksResources t s names =>
      exists jr, compile_job_resources (tk_jr tk) t (sk_name s) = (jr, names) /\ tk' = mkTrackers (tk_se tk) jr (tk_combo tk)
  | AddsResources t s m =>
      exists jr, add_resource (tk_jr tk) t s m = Ok jr /\ tk' = mkTrackers (tk_se tk) jr (tk_combo tk)
  | AsksCombo t s m names =>
      exists ct, compile_and_update_combo (tk_combo tk) t s m = Ok (ct, names) /\ tk' = mkTrackers (tk_se tk) (tk_jr tk) ct
  | Grants t s m targets =>
      exists se, add_to_status_effects (tk_se tk) t s m targets = Ok se /\ tk' = mkTrackers se (tk_jr tk) (tk_combo tk)
  end.
Inductive performed : trackers -> list call -> trackers -> Prop :=
| perf_nil tk : performed tk [] tk
| perf_cons tk c tk1 l tk' : performs tk c tk1 -> performed tk1 l tk' -> performed tk (c :: l) tk'.

(** ** Blocks of calls

    An event is handled at its first time, and if that is not its application, once
    more for each of its targets. *)

Record block := mkBlock { bk_id : Z; bk_stage : option Z; bk_calls : list call }.
Definition label (b : block) : Z * option Z := (bk_id b, bk_stage b).
Definition labels_of (e : event) : list (Z * option Z) :=
  (ev_id e, None)
  :: match ev_secondary e with
     | None => []
     | Some _ => map (fun p => (ev_id e, Some (fst p))) (enumerate (ev_targets e))
     end.
(** [b] is handled, and later [b']. *)
Definition before (h : list block) (b b' : block) : Prop :=
  exists pre mid post, h = (pre ++ b :: mid ++ b' :: post)%list.

(** ** One event *)

(** As the rotation builder makes them. *)
Definition fresh (e : event) : Prop :=
  (exists f g, ev_snap e = (SFlag f, SFlag g)) /\ ev_jr_added e = false /\ ev_jr_cond e = false /\ ev_combo_cond e = false.

(** With several targets, the [k]-th (from 0) is hit 135 ms after the one before, and
    that number is a condition. *)
Definition several (e : event) : bool := (1 <? List.length (ev_targets e))%nat.
Definition spread (e : event) (t k : Z) : Z := if several e then t + 135 * k else t.
Definition placed (e : event) (k : Z) (m : modifier) : modifier :=
  if several e then add_to_condition m ("Target " ++ string_of_Z (k + 1)) else m.

(** Asking now, if it is time to. *)
Inductive asks_buffs (t : Z) (s : skill) : bool -> snap -> modifier -> list call -> snap -> modifier -> Prop :=
| ask_buffs_now sn m e names :
    asks_buffs t s true sn m [AsksBuffs t s e names] (SEff e) (add_to_condition m names)
| ask_buffs_later sn m : asks_buffs t s false sn m [] sn m.
Inductive asks_debuffs (t : Z) (s : skill) (x : string) : bool -> snap -> modifier -> list call -> snap -> modifier -> Prop :=
| ask_debuffs_now sn m e names :
    asks_debuffs t s x true sn m [AsksDebuffs t s x e names] (SEff e) (add_to_condition m names)
| ask_debuffs_later sn m : asks_debuffs t s x false sn m [] sn m.
Inductive asks_resources (t : Z) (s : skill) : bool -> modifier -> list call -> modifier -> Prop :=
| ask_resources_now m names : asks_resources t s true m [AsksResources t s names] (add_to_condition m names)
| ask_resources_later m : asks_resources t s false m [] m.

(** A hit, if the skill does damage under the modifier. *)
Inductive deals (e : event) (t : Z) (x : string) (m : modifier) (b d : status_effects) : list instance -> Prop :=
| deals_hit sp : get_damage_spec (ev_skill e) m = Ok (Some sp) ->
    deals e t x m b d [mkInst t (ev_skill e) m (b, d) (ev_id e) x]
| deals_nothing : get_damage_spec (ev_skill e) m = Ok None -> deals e t x m b d [].

(** *** Application at the first time *)

(** The targets from number [k] on: calls, final modifiers, hits. *)
Inductive strikes (e : event) (m : modifier) (b : status_effects) : Z -> list string -> list call -> list modifier -> list instance -> Prop :=
| strikes_nil k : strikes e m b k [] [] [] []
| strikes_next k x l d names cs ms is js :
    deals e (spread e (ev_primary e) k) x (add_to_condition (placed e k m) names) b d is ->
    strikes e m b (k + 1) l cs ms js ->
    strikes e m b k (x :: l) (AsksDebuffs (ev_primary e) (ev_skill e) x d names :: cs)
      (add_to_condition (placed e k m) names :: ms) (is ++ js)%list.

Inductive applies_at_once (e : event) : list call -> list instance -> Prop :=
| at_once nr nc nb m1 m2 m3 b cs ms is mg :
    let t := ev_primary e in
    let s := ev_skill e in
    m1 = add_to_condition (ev_modifier e) nr ->
    add_positional s (add_to_condition m1 nc) = Ok m2 ->
    m3 = add_to_condition m2 nb ->
    strikes e m3 b 0 (ev_targets e) cs ms is ->
    (ms = [mg] \/ List.length ms <> 1%nat /\ mg = m3) ->
    applies_at_once e
      (Expires t :: AsksResources t s nr :: AddsResources t s m1 :: AsksCombo t s m1 nc :: AsksBuffs t s b nb
         :: cs ++ [Grants t s mg (ev_targets e)])%list is.

(** *** Snapshot and application apart *)

(** What the snapshot leaves for one target. *)
Record pending := mkPending { pe_k : Z; pe_target : string; pe_buffs : snap; pe_debuffs : snap; pe_modifier : modifier }.

Inductive aims (e : event) (f : bool) (sb : snap) (m : modifier) : Z -> list string -> list call -> list pending -> Prop :=
| aims_nil k : aims e f sb m k [] [] []
| aims_next k x l c1 sn m1 cs ps :
    asks_debuffs (ev_primary e) (ev_skill e) x f (snd (ev_snap e)) (placed e k m) c1 sn m1 ->
    aims e f sb m (k + 1) l cs ps ->
    aims e f sb m k (x :: l) (c1 ++ cs)%list (mkPending k x sb sn m1 :: ps).

Inductive snapshots (e : event) : list call -> list pending -> Prop :=
| snapshots_now f g c1 c2 cs nc sb m1 m2 m3 ps :
    let t := ev_primary e in
    let s := ev_skill e in
    ev_snap e = (SFlag f, SFlag g) ->
    asks_buffs t s f (SFlag f) (ev_modifier e) c1 sb m1 ->
    asks_resources t s (sk_job_resources_snapshot s) m1 c2 m2 ->
    add_positional s (add_to_condition m2 nc) = Ok m3 ->
    aims e g sb m3 0 (ev_targets e) cs ps ->
    snapshots e (Expires t :: c1 ++ c2 ++ AsksCombo t s m2 nc :: AddsResources t s m3 :: cs)%list ps.

(** The application on one target, at [t]. *)
Definition taken (sn : snap) : bool := match sn with SEff _ => true | SFlag _ => false end.
Inductive applies_later (e : event) (t : Z) (p : pending) : list call -> list instance -> Prop :=
| later c1 c2 c3 m1 m2 m3 b d is :
    let s := ev_skill e in
    asks_resources t s (negb (sk_job_resources_snapshot s)) (pe_modifier p) c1 m1 ->
    asks_buffs t s (negb (taken (pe_buffs p))) (pe_buffs p) m1 c2 (SEff b) m2 ->
    asks_debuffs t s (pe_target p) (negb (taken (pe_debuffs p))) (pe_debuffs p) m2 c3 (SEff d) m3 ->
    deals e t (pe_target p) m3 b d is ->
    applies_later e t p (Expires t :: c1 ++ c2 ++ c3 ++ [Grants t s m3 [pe_target p]])%list is.

(** *** Everything an event does, in a run with the blocks [h] *)
Inductive story (h : list block) (e : event) : list instance -> Prop :=
| story_at_once cs is :
    ev_secondary e = None -> applies_at_once e cs is -> In (mkBlock (ev_id e) None cs) h -> story h e is
| story_apart app cs ps iss :
    ev_secondary e = Some app -> snapshots e cs ps ->
    Forall2 (fun p is => exists cs', applies_later e (spread e app (pe_k p)) p cs' is
               /\ before h (mkBlock (ev_id e) None cs) (mkBlock (ev_id e) (Some (pe_k p)) cs')) ps iss ->
    story h e (List.concat iss).

(** Everything a run of [get_damage_instances] does. *)
Definition damage_run (tk : trackers) (evs : list event) (tk' : trackers) (l : list instance) (h : list block)
    (hits : list (list instance)) : Prop :=
  performed tk (flat_map bk_calls h) tk'
  /\ Permutation (map label h) (flat_map labels_of evs)
  /\ Forall2 (story h) evs hits
  /\ Permutation l (List.concat hits)
  /\ StronglySorted (fun i j => di_time i <= di_time j) l.

(** ** What an event's hits are made of *)

(** One of the comma-separated conditions of a string. *)
Definition names_condition (s c : string) : Prop := exists cs, conditions_named s cs /\ In c cs.

(** The same modifier with more conditions. *)
Definition extends (m m' : modifier) : Prop := m' = set_cond m (sm_cond m') /\ incl (sm_cond m) (sm_cond m').

(** Snapshotted things are taken at the event's first time, others at its application. *)
Definition moment (e : event) (snapshotted : bool) (k : Z) : Z :=
  match ev_secondary e with
  | None => ev_primary e
  | Some app => if snapshotted then ev_primary e else spread e app k
  end.
(** The blocks in which the [k]-th target is dealt with. *)
Definition stages (e : event) (k : Z) : list (Z * option Z) :=
  match ev_secondary e with
  | None => [(ev_id e, None)]
  | Some _ => [(ev_id e, None); (ev_id e, Some k)]
  end.
Definition tagged (h : list block) : list ((Z * option Z) * call) :=
  flat_map (fun b => map (pair (label b)) (bk_calls b)) h.

(** The call is made for the [k]-th target of [e], by trackers that have seen all
    calls before it, but none that starts this hit's own effects. *)
Definition answered (tk : trackers) (h : list block) (e : event) (k : Z) (c : call) : Prop :=
  exists lab pre post tk1 tk2,
    tagged h = (pre ++ (lab, c) :: post)%list /\ In lab (stages e k)
    /\ performed tk (map snd pre) tk1 /\ performs tk1 c tk2
    /\ forall lab' t s m targets, In (lab', Grants t s m targets) pre -> ~ In lab' (stages e k).

(** The final modifier [m] and effects [b], [d] of the hit on the [k]-th target [x]. *)
Definition described (tk : trackers) (h : list block) (e : event) (k : Z) (x : string) (m : modifier)
    (b d : status_effects) : Prop :=
  exists f g nb nd nr nc np mc mp,
    let s := ev_skill e in
    ev_snap e = (SFlag f, SFlag g)
    /\ answered tk h e k (AsksBuffs (moment e f k) s b nb)
    /\ answered tk h e k (AsksDebuffs (moment e g k) s x d nd)
    /\ answered tk h e k (AsksResources (moment e (sk_job_resources_snapshot s) k) s nr)
    /\ answered tk h e k (AsksCombo (ev_primary e) s mc nc)
    /\ add_positional s mp = Ok (add_to_condition mp np) /\ extends (ev_modifier e) mp /\ extends mp m
    /\ extends (ev_modifier e) m
    /\ forall c, In c (sm_cond m) <->
         In c (sm_cond (ev_modifier e)) \/ names_condition nb c \/ names_condition nd c \/ names_condition nr c
         \/ names_condition nc c \/ names_condition np c
         \/ several e = true /\ c = "Target " ++ string_of_Z (k + 1).

(** The hits of an event on its targets from number [k] on, the first at [t]: those
    under whose final modifier the skill does damage. *)
Inductive lands (e : event) (P : Z -> string -> modifier -> status_effects -> status_effects -> Prop) (t : Z)
  : Z -> list string -> list instance -> Prop :=
| lands_nil k : lands e P t k [] []
| lands_next k x l m b d is js :
    P k x m b d -> deals e (spread e t k) x m b d is -> lands e P t (k + 1) l js -> lands e P t k (x :: l) (is ++ js)%list.

(** ** Order *)

(** Events are first handled in the order of the queue. *)
Definition first_handled_in_order (evs : list event) (h : list block) : Prop :=
  forall e1 e2, In e1 evs -> In e2 evs -> ~ key_le e2 e1 ->
    exists pre mid post, map label h = (pre ++ (ev_id e1, None) :: mid ++ (ev_id e2, None) :: post)%list.

(** ** From one rotation to the next *)

(** A skill that grants nothing. *)
Definition traceless (s : skill) : Prop :=
  forall m, get_buff_spec s m = Ok None /\ get_debuff_spec s m = Ok None
    /\ get_job_resource_spec s m = Ok [] /\ get_combo_spec s m = Ok [].
(** What the caller gets. *)
Definition outcome (r : res (trackers * queue * list instance)) : res (list instance) :=
  match r with Ok (_, _, l) => Ok l | Err e => Err e end.

(** ** Plain buffs: everyone benefits, however often, for [d] ms *)
Definition plain_buff (s : skill) (d : Z) : Prop :=
  exists sp, sk_buff s = COne sp /\ duration sp = Fin d /\ num_uses sp = Inf /\ se_allowlist sp = None
    /\ expires_status_effects sp = [] /\ clear_all_status_effects sp = false /\ extend_only sp = false.
Definition has_buff_of (x : instance) (s : skill) : Prop := In (sk_name s) (ef_names (fst (di_effects x))).
