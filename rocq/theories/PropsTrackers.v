(** * C28-C30: combos, job resources, channeling *)

From Coq Require Import ZArith QArith List String Bool Sorted.
From Verif Require Import Base Strings Types Lookup Stats Library StatusEffect Combo JobResource Channeling Events Rotation SpecTrackers TrackerFacts Fixtures.
Import ListNotations.
Open Scope string_scope.
Open Scope Z_scope.

(** ** C28: combos *)

(** From every tracker state a skill's combo specs are processed as [combos_used]
    (SpecTrackers.v) describes; the empty condition is returned exactly on success. *)
Theorem C28_combo : forall ct t s m specs,
  get_combo_spec s m = Ok specs ->
  exists ct' (ok : bool),
    compile_and_update_combo ct t s m = Ok (ct', if ok then "" else "No Combo")
    /\ combos_used (ct_breakers ct) t (sk_name s) m (combo_view ct) specs ok (combo_view ct')
    /\ ct_breakers ct' = ct_breakers ct.
Proof. exact compile_combo_spec. Qed.
Print Assumptions C28_combo.

(** A new tracker has no group in progress and breaks combos as told; the trackers of a run
    are told the job's combo breakers and resources in the library. *)
Theorem C28_initial : forall br, (forall h, combo_view (combo_init br) h = None) /\ ct_breakers (combo_init br) = br.
Proof. exact (fun br => conj (fun h => eq_refl) eq_refl). Qed.
Print Assumptions C28_initial.
Theorem C28_run : forall lib job prio tk,
  new_trackers lib job prio = Ok tk ->
  (forall h, combo_view (tk_combo tk) h = None) /\ get_all_combo_breakers lib job = Ok (ct_breakers (tk_combo tk))
  /\ exists settings, get_all_resource_settings lib job = Ok settings /\ tk_jr tk = jr_init settings.
Proof. exact trackers_told. Qed.
Print Assumptions C28_run.

(** ** C29: job resources *)

(** After any sequence of calls, what is reported for a skill: every resource that allows
    the skill and has a positive amount, as "N name" or "name". *)
Theorem C29_report : forall settings ops tr t skill_name,
  NoDup (dkeys settings) -> foldM jr_apply ops (jr_init settings) = Ok tr ->
  snd (compile_job_resources tr t skill_name)
  = join ", " (flat_map (fun kc =>
      if smem skill_name (jrs_allowlist (snd kc))
      then resource_condition (snd kc) (fst kc)
             (resource_total (snd kc) t (sort_by je_start (jr_history (fst kc) ops)))
      else []) settings).
Proof. exact compile_job_resources_spec. Qed.
Print Assumptions C29_report.

(** The amount: 0 once the resource has run out, else the clamped running sum of the
    entries active at [t] since the last time it had run out; always within bounds. *)
Theorem C29_amount : forall settings ops tr t n cfg,
  NoDup (dkeys settings) -> foldM jr_apply ops (jr_init settings) = Ok tr ->
  dget n settings = Some cfg ->
  exists amount before since,
    since_run_out cfg (sort_by je_start (jr_history n ops)) before since
    /\ (run_out cfg (sort_by je_start (jr_history n ops)) t
        /\ refreshed_at (sort_by je_start (jr_history n ops)) <> Some 0 -> amount = 0)
    /\ (~ (run_out cfg (sort_by je_start (jr_history n ops)) t
           /\ refreshed_at (sort_by je_start (jr_history n ops)) <> Some 0) ->
        amount = clamped_sum (jrs_max cfg) (filter (jr_active t) since))
    /\ 0 <= amount <= Z.max 0 (jrs_max cfg)
    /\ amount = resource_total cfg t (sort_by je_start (jr_history n ops)).
Proof. exact resource_amount_spec. Qed.
Print Assumptions C29_amount.

(** A resource last refreshed at time 0 never runs out. *)
Theorem C29_refresh_at_zero_refuted :
  ~ (forall settings ops tr t n cfg,
       foldM jr_apply ops (jr_init settings) = Ok tr -> settings = [(n, cfg)] ->
       run_out cfg (sort_by je_start (jr_history n ops)) t ->
       forall skill_name, snd (compile_job_resources tr t skill_name) = "").
Proof. exact refresh_at_zero_refuted. Qed.
Print Assumptions C29_refresh_at_zero_refuted.

(** A gain recorded for a later time can change what is reported now. *)
Theorem C29_future_gain_refuted :
  ~ (forall settings ops op tr tr' t skill_name,
       foldM jr_apply ops (jr_init settings) = Ok tr ->
       jr_apply tr op = Ok tr' ->
       (forall t0 s m, op = JrAdd t0 s m -> t < t0) ->
       snd (compile_job_resources tr' t skill_name) = snd (compile_job_resources tr t skill_name)).
Proof. exact future_entry_refuted. Qed.
Print Assumptions C29_future_gain_refuted.

(** ** C30: channeling *)

(** For time-ordered uses the windows are exactly those [windows_of] describes. *)
Theorem C30_windows_exact : forall l,
  Forall (fun u => is_wait (snd (fst u)) = true \/ ch_plain u) l ->
  StronglySorted (fun a b => ch_time a <= ch_time b) l -> Forall nonneg_duration l ->
  channel_run l = Ok (windows_of l).
Proof. exact channel_run_ordered. Qed.
Print Assumptions C30_windows_exact.

(** They do not overlap, are in order, not inverted, one per channeling use, start at that
    use, last at most its duration, and end early exactly when cut. *)
Theorem C30_windows_disjoint_bounded : forall l ws,
  Forall (fun u => is_wait (snd (fst u)) = true \/ ch_plain u) l ->
  StronglySorted (fun a b => ch_time a <= ch_time b) l -> Forall nonneg_duration l ->
  channel_run l = Ok ws ->
  StronglySorted window_before ws
  /\ StronglySorted (fun a b => fst a <= fst b) ws
  /\ Forall (fun w => ext_le (Fin (fst w)) (snd w)) ws
  /\ (forall w, In w ws -> exists a u b c,
        l = (a ++ u :: b)%list /\ channels u = Some c /\ fst w = ch_time u
        /\ ext_le (snd w) (ext_add (Fin (ch_time u)) (ch_duration c))
        /\ snd w = channel_end (ch_time u) c b)
  /\ List.length ws = List.length (filter (fun u => match channels u with Some _ => true | None => false end) l).
Proof. exact channel_windows_spec. Qed.
Print Assumptions C30_windows_disjoint_bounded.

(** ** Examples *)

Definition ex_combo (name : string) (prev : list string) (g : Z) : skill :=
  mkSkill name CNone CNone CNone CNone CNone (TTuple []) (TTuple [mkCombo prev g false false]) [] true [] true (TTuple []) "".
Definition ex_combo_run (uses : list (Z * skill)) : res (list string) :=
  let* (_, l) := foldM (fun st u =>
      let* (ct', r) := compile_and_update_combo (fst st) (fst u) (snd u) default_modifier in
      Ok (ct', (snd st ++ [r])%list)) uses (combo_init [(0, [1])], []) in
  Ok l.
(** Fresh predecessor (30 s later still counts), another group in between, a breaking group. *)
Example ex_combos :
  ex_combo_run [(0, ex_combo "One" [] 0); (100, ex_combo "Else" [] 2); (30000, ex_combo "Two" ["One"] 0);
                (30100, ex_combo "Two" ["One"] 0); (30200, ex_combo "One" [] 0); (60201, ex_combo "Two" ["One"] 0);
                (60300, ex_combo "One" [] 0); (60400, ex_combo "Breaker" [] 1); (60500, ex_combo "Two" ["One"] 0)]
  = Ok [""; ""; ""; "No Combo"; ""; "No Combo"; ""; ""; "No Combo"].
Proof. vm_compute. reflexivity. Qed.

Example ex_trackers : exists tk, new_trackers fx_library "test_job" [] = Ok tk.
Proof. eexists. vm_compute. reflexivity. Qed.

Example ex_resource :
  match foldM jr_apply [JrAdd 1000 (cx_gain true) default_modifier; JrCompile 1500 "Spend"; JrAdd 3000 (cx_gain false) default_modifier;
                        JrAdd 2000 (cx_gain true) default_modifier] (jr_init cx_settings) with
  | Ok tr => (snd (compile_job_resources tr 2500 "Spend"), snd (compile_job_resources tr 12001 "Spend"),
              snd (compile_job_resources tr 12000 "Spend")) = ("10 Gauge", "", "10 Gauge")
  | Err _ => False
  end.
Proof. vm_compute. reflexivity. Qed.

Definition ex_channel : skill :=
  mkSkill "Flame" CNone CNone CNone CNone (COne (mkChanneling (Fin 18000) ["Ok"] (Fin 2))) (TTuple []) (TTuple []) [] true [] true (TTuple []) "".
Definition ex_named (n : string) : skill :=
  mkSkill n CNone CNone CNone CNone CNone (TTuple []) (TTuple []) [] true [] true (TTuple []) "".
Example ex_channel_windows :
  channel_run (map (fun u => (fst u, snd u, default_modifier))
    [(0, ex_channel); (1000, ex_named "Ok"); (1500, ex_named "Wait 1s"); (2000, ex_named "Ok"); (3000, ex_named "Ok");
     (4000, ex_channel); (5000, ex_named "Other"); (6000, ex_channel); (7000, ex_channel); (30000, ex_named "Other")])
  = Ok [(0, Fin 2000); (4000, Fin 5000); (6000, Fin 7000); (7000, Fin 25000)].
Proof. vm_compute. reflexivity. Qed.
