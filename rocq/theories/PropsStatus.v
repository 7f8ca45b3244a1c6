(** * C24-C27: status effects *)

From Coq Require Import ZArith QArith List String Bool.
From Verif Require Import Base Float Strings Types Lookup StatusEffect SpecStatus StatusFacts Fixtures.
Import ListNotations.
Open Scope string_scope.
Open Scope Z_scope.

(** ** C24: exactly the right effects count *)

(** Expiring at [t] and compiling the buffs for a skill uses exactly the effects that
    [counts] describes, in the order they were first applied; the compiled numbers are the
    sums and products over their specs, the condition string lists those that ask for it;
    each loses one use, the others stay as they are or disappear once over. *)
Theorem C24_buffs : forall st t s st' e c,
  se_reachable st ->
  compile_buffs (expire_status_effects t st) t s = Ok (st', (e, c)) ->
  (forall n, In n (effect_names e) <-> counts (se_priority st) t s (se_buffs st) n)
  /\ sublist (effect_names e) (dkeys (se_buffs st))
  /\ (exists acts,
        Forall2 (fun n a => dget n (se_buffs st) = Some a) (effect_names e) acts
        /\ combined (map ac_spec acts) e
        /\ c = join ", " (map fst (filter (fun na => add_to_skill_modifier_condition (ac_spec (snd na)))
                                     (combine (effect_names e) acts))))
  /\ (forall n a, In n (effect_names e) -> dget n (se_buffs st) = Some a ->
        dget n (se_buffs st') = Some (used a))
  /\ (forall n, ~ In n (effect_names e) ->
        match dget n (se_buffs st) with
        | Some a => (not_over t (ac_end a) /\ has_uses (ac_uses a) -> dget n (se_buffs st') = Some a)
                    /\ (~ (not_over t (ac_end a) /\ has_uses (ac_uses a)) -> dget n (se_buffs st') = None)
        | None => dget n (se_buffs st') = None
        end)
  /\ (forall target, get_debuffs st' target = get_debuffs (expire_status_effects t st) target).
Proof. exact compile_buffs_spec. Qed.
Print Assumptions C24_buffs.

(** The same for the debuffs of a target. *)
Theorem C24_debuffs : forall st t s target st' e c,
  se_reachable st ->
  compile_debuffs (expire_status_effects t st) t s target = Ok (st', (e, c)) ->
  (forall n, In n (effect_names e) <-> counts (se_priority st) t s (get_debuffs st target) n)
  /\ sublist (effect_names e) (dkeys (get_debuffs st target))
  /\ (exists acts,
        Forall2 (fun n a => dget n (get_debuffs st target) = Some a) (effect_names e) acts
        /\ combined (map ac_spec acts) e
        /\ c = join ", " (map fst (filter (fun na => add_to_skill_modifier_condition (ac_spec (snd na)))
                                     (combine (effect_names e) acts))))
  /\ (forall n a, In n (effect_names e) -> dget n (get_debuffs st target) = Some a ->
        dget n (get_debuffs st' target) = Some (used a))
  /\ (forall n, ~ In n (effect_names e) ->
        match dget n (get_debuffs st target) with
        | Some a => (not_over t (ac_end a) /\ has_uses (ac_uses a) -> dget n (get_debuffs st' target) = Some a)
                    /\ (~ (not_over t (ac_end a) /\ has_uses (ac_uses a)) -> dget n (get_debuffs st' target) = None)
        | None => dget n (get_debuffs st' target) = None
        end)
  /\ se_buffs st' = se_buffs (expire_status_effects t st)
  /\ (forall x, x <> target -> get_debuffs st' x = get_debuffs (expire_status_effects t st) x).
Proof. exact compile_debuffs_spec. Qed.
Print Assumptions C24_debuffs.

(** The compilation of a set of effects raises exactly when two of the counting effects
    force a crit outcome, or two force a direct hit outcome. *)
Theorem C24_when_it_raises : forall prio t d s,
  NoDup (dkeys d) ->
  exists names acts,
    (forall n, In n names <-> counts prio t s d n) /\ sublist names (dkeys d)
    /\ Forall2 (fun n a => dget n d = Some a) names acts
    /\ ((exists r, compile_effects prio t (expire_effects t d) (sk_denylist s) (sk_name s) = Ok r)
        <-> at_most_one_forced (map (fun a => se_crit (ac_spec a)) acts)
            /\ at_most_one_forced (map (fun a => se_dh (ac_spec a)) acts))
    /\ (forall err, compile_effects prio t (expire_effects t d) (sk_denylist s) (sk_name s) = Err err ->
          err = AssertionError).
Proof. exact compile_total. Qed.
Print Assumptions C24_when_it_raises.

(** ** C25: applying an effect *)

(** Everything [add_to_status_effects] changes: every effect, of the player and of every
    target.  A debuff is applied once per occurrence of the target in the list. *)
Theorem C25_apply : forall st t s m targets buff debuff,
  get_buff_spec s m = Ok buff -> get_debuff_spec s m = Ok debuff ->
  exists st', add_to_status_effects st t s m targets = Ok st'
  /\ se_priority st' = se_priority st
  /\ (forall n, dget n (se_buffs st')
       = ended_if match debuff, targets with
                  | Some sp, _ :: _ => smem n (expires_status_effects sp)
                  | _, _ => false
                  end t
           (match buff with
            | Some sp => hit_by t (sk_name s) sp n (if clear_all_status_effects sp then None else dget n (se_buffs st))
            | None => dget n (se_buffs st)
            end))
  /\ (forall x n, dget n (get_debuffs st' x)
       = let old := ended_if match buff with
                             | Some sp => String.eqb x DEFAULT_TARGET && smem n (expires_status_effects sp)
                             | None => false
                             end t (dget n (get_debuffs st x)) in
         match debuff with
         | Some sp => Nat.iter (count_occ string_dec targets x) (hit_by t (sk_name s) sp n) old
         | None => old
         end).
Proof. exact add_to_status_effects_spec. Qed.
Print Assumptions C25_apply.

(** Spelled out for a buff that is active: the end, the uses and the start of the new record. *)
Theorem C25_reapply : forall st t s m targets sp a st',
  get_buff_spec s m = Ok (Some sp) -> get_debuff_spec s m = Ok None ->
  ~ In (sk_name s) (expires_status_effects sp) -> clear_all_status_effects sp = false ->
  dget (sk_name s) (se_buffs st) = Some a ->
  add_to_status_effects st t s m targets = Ok st' ->
  exists a', dget (sk_name s) (se_buffs st') = Some a'
  /\ ac_start a' = ac_start a /\ ac_spec a' = sp
  /\ (extends_existing_duration sp = true ->
      ac_end a' = plus (Fin t) (shorter (max_duration sp) (plus (remaining t (ac_end a)) (duration sp))))
  /\ (extends_existing_duration sp = false -> ac_end a' = plus (Fin t) (remaining t (ac_end a)))
  /\ ac_uses a' = shorter (plus (ac_uses a) (num_uses sp)) (max_num_uses sp)
  /\ (forall n, n <> sk_name s -> ~ In n (expires_status_effects sp) ->
        dget n (se_buffs st') = dget n (se_buffs st)).
Proof. exact reapply_spec. Qed.
Print Assumptions C25_reapply.

Theorem C25_extend_only_never_creates : forall st t s m targets sp st',
  get_buff_spec s m = Ok (Some sp) -> get_debuff_spec s m = Ok None -> extend_only sp = true ->
  dget (sk_name s) (se_buffs st) = None ->
  add_to_status_effects st t s m targets = Ok st' ->
  dget (sk_name s) (se_buffs st') = None.
Proof. exact extend_only_spec. Qed.
Print Assumptions C25_extend_only_never_creates.

(** ** C26: uses *)

(** In every run of compilations, each preceded by expiry, at non-decreasing times, an
    effect is used by a compilation exactly when it would count and fewer than its [n]
    uses were consumed before. *)
Theorem C26_n_uses : forall name t st l a l1 st1 t1 s used_now l2,
  se_reachable st -> use_run name t st l ->
  dget name (se_buffs st) = Some a ->
  (forall k, ac_uses a = Fin k -> 0 <= k) ->
  l = (l1 ++ (st1, t1, s, used_now) :: l2)%list ->
  (used_now = true <-> wanted st1 t1 s name a /\ uses_left (ac_uses a) (times_used l1)).
Proof. exact n_uses_spec. Qed.
Print Assumptions C26_n_uses.

(** ** C27: isolation *)

Theorem C27_debuffs_stay_on_their_targets : forall st t s m targets st' x,
  se_reachable st ->
  get_buff_spec s m = Ok None ->
  add_to_status_effects st t s m targets = Ok st' -> ~ In x targets ->
  forall n, dget n (get_debuffs st' x) = dget n (get_debuffs st x).
Proof. exact debuff_isolation. Qed.
Print Assumptions C27_debuffs_stay_on_their_targets.

Theorem C27_compile_isolation : forall st t s target st' r,
  compile_debuffs st t s target = Ok (st', r) ->
  se_buffs st' = se_buffs st
  /\ forall x, x <> target -> get_debuffs st' x = get_debuffs st x.
Proof. exact compile_debuffs_isolation. Qed.
Print Assumptions C27_compile_isolation.

(** A buff that ends other effects also ends them on the target called
    "Default Target", whether or not it was hit. *)
Theorem C27_buff_touches_default_target_refuted :
  ~ (forall st t s m targets st' x n,
       se_reachable st -> get_debuff_spec s m = Ok None ->
       add_to_status_effects st t s m targets = Ok st' -> ~ In x targets ->
       dget n (get_debuffs st' x) = dget n (get_debuffs st x)).
Proof. exact buff_isolation_refuted. Qed.
Print Assumptions C27_buff_touches_default_target_refuted.

(** ** Examples *)

Definition ex_st : res se_tracker :=
  foldM se_apply [SeApply 0 fx_buff default_modifier ["A"]; SeApply 1000 fx_debuff default_modifier ["A"; "B"]]
    (se_init ["Other"; "Boost"]).
(** A reachable tracker with a buff and a debuff on two targets; compiling at 20 s still
    counts the 20 s buff (its end is inclusive), at 20.001 s it is gone. *)
Example ex_compile :
  match ex_st with
  | Ok st =>
      match compile_buffs (expire_status_effects 20000 st) 20000 fx_hit,
            compile_buffs (expire_status_effects 20001 st) 20001 fx_hit,
            compile_debuffs (expire_status_effects 2000 st) 2000 fx_hit "B",
            compile_debuffs (expire_status_effects 2000 st) 2000 fx_hit "C" with
      | Ok (_, (e1, _)), Ok (_, (e2, _)), Ok (_, (e3, _)), Ok (_, (e4, _)) =>
          (ef_names e1, ef_names e2, ef_names e3, ef_names e4) = (["Boost"], [], ["Weaken"], [])
      | _, _, _, _ => False
      end
  | Err _ => False
  end.
Proof. vm_compute. reflexivity. Qed.

(** Applied at 0 for 20 s (capped at 20 s), again at 5 s: ends at 25 s, start stays 0. *)
Example ex_reapply :
  match ex_st with
  | Ok st =>
      match add_to_status_effects st 5000 fx_buff default_modifier ["A"] with
      | Ok st' => option_map (fun a => (ac_start a, ac_end a)) (dget "Boost" (se_buffs st')) = Some (0, Fin 25000)
      | Err _ => False
      end
  | Err _ => False
  end.
Proof. vm_compute. reflexivity. Qed.

(** Two uses: used by the first two hits, not by the third. *)
Definition ex_two_uses : skill :=
  fx_buff_skill "Two" (COne (mkStatus (Fin 30000) (Fin 30000) (Fin 2) (Fin 2) 0 0 1 0 1 0 0 (Fin 0) 0 true [] None
    F_DEFAULT F_DEFAULT false false false false)) CNone.
Definition ex_two_uses_names (ts : list Z) : res (list (list string)) :=
  let* st := add_to_status_effects (se_init []) 0 ex_two_uses default_modifier [] in
  let* (_, l) := foldM (fun st_l t =>
      let* (st', (e, _)) := compile_buffs (expire_status_effects t (fst st_l)) t fx_hit in
      Ok (st', (snd st_l ++ [ef_names e])%list)) ts (st, []) in
  Ok l.
Example ex_uses : ex_two_uses_names [100; 200; 300] = Ok [["Two"]; ["Two"]; []].
Proof. vm_compute. reflexivity. Qed.
