(** Support for the files written by tools/conformance.py: what a test compares. *)
From Coq Require Import ZArith QArith Qabs List String Bool.
From Verif Require Import Base Float Strings Types Lookup Stats Library Combo Channeling JobResource StatusEffect
  Events Rotation DamageBuild Damage Py GameLib.
Import ListNotations.
Open Scope string_scope.
Open Scope Z_scope.

(** Python values as the tests compare them. *)
Inductive obs :=
| ONone | OBool (b : bool) | OZ (z : Z) | OQ (q : Q) | OInf | OStr (s : string)
| OTup (l : list obs) | OSet (l : list obs) | OCond (c : cond)
| OSkill (s : skill) | OMod (m : modifier) | OEff (e : status_effects).
Fixpoint obs_eqb (a b : obs) {struct a} : bool :=
  match a, b with
  | ONone, ONone | OInf, OInf => true
  | OBool x, OBool y => Bool.eqb x y
  | OZ x, OZ y => x =? y
  | OZ x, OQ y => Qeq_bool (inject_Z x) y
  | OQ x, OZ y => Qeq_bool x (inject_Z y)
  | OQ x, OQ y => Qeq_bool x y
  | OStr x, OStr y => String.eqb x y
  | OTup l, OTup l' =>
      (fix go l l' := match l, l' with
                      | [], [] => true
                      | x :: l, y :: l' => obs_eqb x y && go l l'
                      | _, _ => false
                      end) l l'
  | OSet l, OSet l' =>
      forallb (fun x => existsb (obs_eqb x) l') l
      && forallb (fun y => (fix mem l := match l with [] => false | x :: l => obs_eqb x y || mem l end) l) l'
  | OCond x, OCond y => cond_eqb x y
  | OSkill x, OSkill y => skill_eqb x y
  | OMod x, OMod y => modifier_eqb x y
  | OEff x, OEff y => effects_eqb x y
  | _, _ => false
  end.
Definition o_ext (e : ext) : obs := match e with Fin z => OZ z | Inf => OInf end.
Definition o_opt (o : option Z) : obs := match o with Some z => OZ z | None => ONone end.
Definition o_snap (s : snap) : obs := match s with SFlag b => OBool b | SEff e => OEff e end.
(** e[lo:hi] of an event tuple *)
Definition o_event (lo hi : nat) (e : event) : obs :=
  OTup (firstn (hi - lo) (skipn lo
    [OZ (ev_priority e); OTup [OZ (ev_primary e); o_opt (ev_secondary e)]; OSkill (ev_skill e);
     OMod (ev_modifier e); OTup [o_snap (fst (ev_snap e)); o_snap (snd (ev_snap e))];
     OTup (map OStr (ev_targets e)); OZ (ev_id e)])).
Definition o_event_info (e : event) : obs :=
  OTup [OTup [OZ (ev_primary e); o_opt (ev_secondary e)]; OStr (sk_name (ev_skill e)); OTup (map OStr (ev_targets e))].
(** x[0:-2] of a damage instance *)
Definition o_instance (x : instance) : obs :=
  OTup [OZ (di_time x); OSkill (di_skill x); OMod (di_modifier x);
        OTup [OEff (fst (di_effects x)); OEff (snd (di_effects x))]].
Definition o_windows (l : list (Z * ext)) : obs := OTup (map (fun w => OTup [OZ (fst w); o_ext (snd w)]) l).

(** ** Evaluating constructor calls *)
Definition empty_class : pclass := mkClass [] [] [] [] [] [].
Definition py_eval (e : expr) : res value := eval 0 L90 empty_class 100 [] e.
Definition to_skill (v : res value) : res skill :=
  let* v := v in match v with VSkill s _ => Ok s | _ => Err Unmodelled end.
Definition to_jrs (v : res value) : res jr_settings :=
  let* v := v in match v with VJrs s => Ok s | _ => Err Unmodelled end.
Definition run_defs (l : list stmt) : res env :=
  let* (en, _) := exec 0 L90 empty_class 2000 [] l in Ok en.
Definition get_def (en : env) (x : string) : res value := lookup_var x en.
(** testing/test_add_lbs_to_skill_library.py: only the test tank and healer and the melee role exist. *)
Definition add_lbs (l : library) : res library :=
  foldM (fun l j => add_to_job l j (Ok (if is_tank "test" j then tank_lbs
                                        else if is_healer "test" j then healer_lbs else melee_lbs)))
    (dkeys (lib_skills l)) l.

(** ** game_data/job_class_tester_util.py; draws do not matter for expected damage of the shipped
    skills beyond the tolerance, one half is used *)
Definition half : nat -> nat -> draws := fun _ _ => ((1#2)%Q, (1#2)%Q, (1#2)%Q).
Definition rel_close (tol got want : Q) : bool :=
  let d := Qabs (got - want) in
  Qeq_bool d 0 || negb (Qle_bool (tol * Qabs want) d).
Fixpoint rel_closes (tol : Q) (got want : list Q) : bool :=
  match got, want with
  | [], [] => true
  | x :: l, y :: l' => rel_close tol x y && rel_closes tol l l'
  | _, _ => false
  end.
Definition abs_close (tol a b : Q) : bool := Qle_bool (Qabs (a - b)) tol.
Definition damage_of (lib : library) (b : builder) : res (list (string * Q) * Z) :=
  let st := b_stats b in
  let* b := get_skill_timing b in
  let* tk := db_init st lib in
  let* (_, out) := get_damage_instances tk (b_queue b) in
  let* sim := ds_init st out in
  let* (ex, _) := expected_and_variance sim half in
  let ts := map di_time (ds_instances sim) in
  Ok (combine (map (fun x => sk_name (di_skill x)) (ds_instances sim)) (map Qred ex),
      match ts with [] => 0 | t :: r => fold_left Z.max r t - fold_left Z.min r t end).
Definition total (l : list (string * Q)) : Q := Qred (qsum (map snd l)).
Definition tol6 : Q := 6 # 1000.
Definition tol5 : Q := 5 # 1000.
Definition one_skill (lib : library) (st : stats) (n : string) (m : option modifier) (tg : option string) :=
  let* b := rb_init st lib None false false None (RWTuple []) "Default Target" in
  let* b := add_next b n m None 1 tg in damage_of lib b.
Definition skills_test lib st (l : list (string * option modifier * Q)) : res bool :=
  let* r := mapM (fun x => let '(n, m, want) := x in
                           let* (d, _) := one_skill lib st n m None in
                           Ok (rel_close tol6 (total d) want)) l in
  Ok (forallb (fun x => x) r).
Definition aggregate_test lib b (want : Q) (t : Z) : res bool :=
  let* (d, t') := damage_of lib b in Ok (rel_close tol6 (total d) want && (t =? t')).
Definition rotation_test lib b (want : list (string * Q)) : res bool :=
  let* (d, _) := damage_of lib b in
  Ok (obs_eqb (OTup (map (fun x => OStr (fst x)) d)) (OTup (map (fun x => OStr (fst x)) want))
      && rel_closes tol5 (map snd d) (map snd want)).
Definition multi_test lib st (l : list (string * string * option modifier * list Q)) : res bool :=
  let* r := mapM (fun x => let '(n, tg, m, want) := x in
                           let* (d, _) := one_skill lib st n m (Some tg) in
                           Ok (rel_closes tol6 (map snd d) want)) l in
  Ok (forallb (fun x => x) r).

(** The tests that do not come out as the project expects. *)
Definition verdict (lib : library) (tests : list (string * (library -> res (list (string * bool))))) :=
  flat_map (fun t => match snd t lib with
                     | Ok l => match filter (fun x => negb (snd x)) l with
                               | [] => []
                               | bad => [(fst t, Ok (map fst bad))]
                               end
                     | Err e => [(fst t, Err e)]
                     end) tests.
