(** * Rotations for C75 *)

From Coq Require Import ZArith QArith List String Bool Lia Permutation.
From Verif Require Import Base BaseFacts Float Strings Types Lookup Stats Library StatusEffect Events Rotation Fixtures SpecGame SpecPlay SpecTimeline SpecRun SpecLater
  SpecReplay SpecShuffle SpecIdle RunCounter RunProps DetermineFacts PlayFacts ReplayCase ShuffleCase.
Import ListNotations.
Open Scope string_scope.
Open Scope Z_scope.

(** A wait; one too long to fit between GCDs; a channel; an effect with one use, which makes any cast instant. *)
Definition id_pause : skill := fx_skill "Pause" CNone (fx_timing 0 650 0) false [].
Definition id_long : skill := fx_skill "Rest" CNone (fx_timing 0 4000 0) false [].
Definition id_sharp : skill :=
  fx_buff_skill "Sharp" (COne (mkStatus (Fin 20000) (Fin 20000) (Fin 1) (Fin 1) 0 0 1 0 1 0 0 Inf 0 true [] None
    F_DEFAULT F_DEFAULT false false false false)) CNone.
Definition id_library : library :=
  Eval vm_compute in match foldM add_skill [id_pause; id_long; id_sharp; sh_channel] fx_library with Ok l => l | Err _ => fx_library end.
Definition id_start (autos trailing : bool) (start : option Z) (w : raw_windows) : res builder := rb_init fx_stats id_library None autos trailing start w DEFAULT_TARGET.
Definition pause : call := tap "Pause" None.

Lemma id_idle : idle id_pause /\ idle id_long.
Proof. split; intros m; repeat split. Qed.
Lemma id_found st : b_library st = id_library -> b_stats st = fx_stats ->
  get_skill (b_library st) (c_name pause) (match c_job pause with Some j => j | None => st_job (b_stats st) end) = Ok id_pause.
Proof. intros -> ->. vm_compute. reflexivity. Qed.

(** *** Timed: a press among presses of both kinds, with a downtime and damage over time. *)
Definition it_start : res builder := id_start false false None (RWTuple [(dec 64 10, dec 66 10, None)]).
Definition it_l1 : list instr := [PressAt (-1) (tap "Burn" None); NextPress (tap "Boost" None) 1; PressAt (dec 21 10) (tap "Quick" (Some "Add"))].
Definition it_l2 : list instr := [NextPress (tap "Hit" (Some "Add, Other")) 3; PressAt 5 (tap "Cast" None)].
Definition it_run (l : list instr) : res builder := let* b := it_start in follow b l.
Definition it_l : list instr := (it_l1 ++ PressAt 3 pause :: it_l2)%list.
Definition it_b0 : builder := fst (ran it_start).
Definition it_b : builder := fst (ran (it_run it_l)).
Definition it_r : builder := snd (ran (it_run it_l)).
Lemma it_ok : it_start = Ok it_b0 /\ follow it_b0 it_l = Ok it_b /\ get_skill_timing it_b = Ok it_r.
Proof. split; [vm_compute; reflexivity|]. split; vm_compute; reflexivity. Qed.
Lemma it_settings : b_autos it_b0 = false /\ b_ignore_trailing it_b0 = false /\ b_library it_b0 = id_library /\ b_stats it_b0 = fx_stats.
Proof. split; [vm_compute; reflexivity|]. split; [vm_compute; reflexivity|]. split; vm_compute; reflexivity. Qed.
Lemma it_distinct : distinct_times it_b.
Proof. vm_compute. repeat constructor; simpl; intuition discriminate. Qed.
Lemma it_skills : skills_of it_b = [fx_buff; fx_hit; fx_hit; fx_hit; fx_burn; fx_ogcd; id_pause; fx_cast].
Proof. vm_compute. reflexivity. Qed.
Lemma it_resources : get_all_resource_settings (b_library it_b) (st_job (b_stats it_b)) = Ok [].
Proof. vm_compute. reflexivity. Qed.
Lemma simple_parts p s fus : sk_follow_ups s = TTuple fus -> Forall (fun fu => sk_follow_ups (fu_skill fu) = TTuple []) fus -> part_of p s -> p = s \/ In p (map fu_skill fus).
Proof.
  intros E F P. inversion P as [|? fu ? I P']; subst; [auto|]. right. unfold follow_ups_of, tvalues in I. rewrite E in I.
  rewrite Forall_forall in F. inversion P' as [|? fu' ? I' _]; subst; [apply in_map, I|]. unfold follow_ups_of, tvalues in I'. rewrite (F _ I) in I'. destruct I'.
Qed.
Lemma plain_uncounted b name l :
  skills_of b = l -> get_all_resource_settings (b_library b) (st_job (b_stats b)) = Ok [] ->
  Forall (fun s => (exists fus, sk_follow_ups s = TTuple fus /\ Forall (fun fu => sk_follow_ups (fu_skill fu) = TTuple []) fus
     /\ Forall (fun p => Forall (fun e => num_uses e = Inf /\ max_num_uses e = Inf) (SpecGame.effects_of p)) (s :: map fu_skill fus))) l ->
  uncounted b name.
Proof.
  intros S R F. split.
  - intros s p e I P E. rewrite S in I. rewrite Forall_forall in F. destruct (F s I) as (fus & E1 & F1 & F2). left.
    rewrite Forall_forall in F2. destruct (simple_parts p s fus E1 F1 P) as [->|J].
    + specialize (F2 s (or_introl eq_refl)). rewrite Forall_forall in F2. exact (F2 e E).
    + specialize (F2 p (or_intror J)). rewrite Forall_forall in F2. exact (F2 e E).
  - intros rs n cfg E I. rewrite R in E. injection E as <-. destruct I.
Qed.
Lemma it_uncounted : uncounted it_b "Pause".
Proof.
  apply (plain_uncounted _ _ _ it_skills it_resources). repeat constructor; (eexists; split; [reflexivity|]; split; repeat constructor).
Qed.
Lemma it_shown : map (fun e => (ev_primary e, sk_name (ev_skill e))) (timeline it_r)
  = [(-400, "Burn"); (-400, "Burn (tick)"); (-400, "Burn (tick)"); (-400, "Burn (tick)"); (-400, "Burn (tick)"); (-400, "Burn (tick)");
     (600, "Boost"); (1250, "Hit"); (2700, "Quick"); (3600, "Pause"); (3690, "Hit"); (6130, "Hit")].
Proof. vm_compute. reflexivity. Qed.

(** *** In sequence: between two GCDs. *)
Definition is_start : res builder := id_start false false (Some 0) (RWTuple []).
Definition is_l1 : list instr := [NextPress (tap "Burn" None) 1; NextPress (tap "Quick" None) 1].
Definition is_l2 : list instr := [NextPress (tap "Hit" None) 2; NextPress (tap "Quick" None) 1].
Definition is_l : list instr := (is_l1 ++ NextPress pause 1 :: is_l2)%list.
Definition is_run (l : list instr) : res builder := let* b := is_start in follow b l.
Definition is_b0 : builder := fst (ran is_start).
Definition is_b1 : builder := fst (ran (is_run is_l1)).
Definition is_b : builder := fst (ran (is_run is_l)).
Definition is_r : builder := snd (ran (is_run is_l)).
Lemma is_ok : is_start = Ok is_b0 /\ follow is_b0 is_l1 = Ok is_b1 /\ follow is_b0 is_l = Ok is_b /\ get_skill_timing is_b = Ok is_r.
Proof. split; [vm_compute; reflexivity|]. split; [vm_compute; reflexivity|]. split; vm_compute; reflexivity. Qed.
Lemma is_settings : b_autos is_b0 = false /\ b_ignore_trailing is_b0 = false /\ b_library is_b0 = id_library /\ b_stats is_b0 = fx_stats.
Proof. split; [vm_compute; reflexivity|]. split; [vm_compute; reflexivity|]. split; vm_compute; reflexivity. Qed.
Lemma is_skills : skills_of is_b = [fx_burn; fx_ogcd; id_pause; fx_hit; fx_hit; fx_ogcd] /\ map sq_skill (b_sequence is_b) = [fx_burn; fx_ogcd; id_pause; fx_hit; fx_hit; fx_ogcd] /\ b_timed is_b = [].
Proof. split; [vm_compute; reflexivity|]. split; vm_compute; reflexivity. Qed.
Lemma is_resources : get_all_resource_settings (b_library is_b) (st_job (b_stats is_b)) = Ok [].
Proof. vm_compute. reflexivity. Qed.
Lemma is_uncounted : uncounted is_b "Pause".
Proof.
  destruct is_skills as (S & _). apply (plain_uncounted _ _ _ S is_resources). repeat constructor; (eexists; split; [reflexivity|]; split; repeat constructor).
Qed.
Lemma is_locks : nonneg_locks is_b.
Proof. destruct is_skills as (_ & S & T). apply (fixed_locks _ _ S T). vm_compute. reflexivity. Qed.
Lemma is_length : List.length (b_sequence is_b1) = 2%nat.
Proof. vm_compute. reflexivity. Qed.
Lemma is_log : map (fun p => (pl_time p, busy p, sk_is_GCD (pl_skill p))) (log_of is_b) = [(0, 650, true); (650, 650, false); (1300, 650, false); (2440, 650, true); (4880, 650, true); (5530, 650, false)].
Proof. vm_compute. reflexivity. Qed.
Lemma is_log_ok : exists l, sequence_log is_b = Ok l.
Proof. destruct (sequence_log is_b) as [l|e] eqn:E; [eauto|]. exfalso. pose proof is_log as L. unfold log_of in L. rewrite E in L. discriminate L. Qed.
Lemma is_fits : fits is_b (List.length (b_sequence is_b1)).
Proof.
  rewrite is_length. intros slog tlog p x Pl P X.
  destruct (played_determined _ _ _ _ _ (log_of_played is_b is_log_ok (proj2 (proj2 is_skills))) Pl) as (<- & _).
  pose proof (map_nth_error (fun p => (pl_time p, busy p, sk_is_GCD (pl_skill p))) _ _ P) as P'.
  pose proof (map_nth_error (fun p => (pl_time p, busy p, sk_is_GCD (pl_skill p))) _ _ X) as X'.
  rewrite is_log in P', X'. cbn [nth_error] in P', X'. injection P' as E1 E2 _. injection X' as E3 _ E5. rewrite <- E1, <- E2, <- E3, <- E5. split; [reflexivity | lia].
Qed.
Lemma is_shown : map (fun p => (pr_time p, pr_name p)) (get_button_press_timing is_r)
  = [(0, "Burn"); (650, "Quick"); (1300, "Pause"); (2440, "Hit"); (4880, "Hit"); (5530, "Quick")].
Proof. vm_compute. reflexivity. Qed.

(** *** What the hypotheses exclude *)

(** An effect with one use and no allow list: the wait uses it up, and the cast is not instant. *)
Definition ic_start : res builder := id_start false false (Some 0) (RWTuple []).
Definition ic_l1 : list instr := [PressAt 0 (tap "Sharp" None)].
Definition ic_l2 : list instr := [PressAt 2 (tap "Cast" None)].
Definition ic_run (l : list instr) : res builder := let* b := ic_start in follow b l.
Definition ic_l : list instr := (ic_l1 ++ PressAt 1 pause :: ic_l2)%list.
Definition ic_b0 : builder := fst (ran ic_start).
Definition ic_b : builder := fst (ran (ic_run ic_l)).
Definition ic_r : builder := snd (ran (ic_run ic_l)).
Definition ic_b' : builder := fst (ran (ic_run (ic_l1 ++ ic_l2))).
Definition ic_r' : builder := snd (ran (ic_run (ic_l1 ++ ic_l2))).
Lemma ic_ok : ic_start = Ok ic_b0 /\ follow ic_b0 ic_l = Ok ic_b /\ get_skill_timing ic_b = Ok ic_r
  /\ follow ic_b0 (ic_l1 ++ ic_l2) = Ok ic_b' /\ get_skill_timing ic_b' = Ok ic_r'.
Proof. split; [vm_compute; reflexivity|]. split; [vm_compute; reflexivity|]. split; [vm_compute; reflexivity|]. split; vm_compute; reflexivity. Qed.
Lemma ic_settings : b_autos ic_b0 = false /\ b_ignore_trailing ic_b0 = false /\ b_library ic_b0 = id_library /\ b_stats ic_b0 = fx_stats.
Proof. split; [vm_compute; reflexivity|]. split; [vm_compute; reflexivity|]. split; vm_compute; reflexivity. Qed.
Lemma ic_distinct : distinct_times ic_b.
Proof. vm_compute. repeat constructor; simpl; intuition discriminate. Qed.
Lemma ic_shown : map (fun e => (ev_primary e, sk_name (ev_skill e))) (timeline ic_r) = [(0, "Sharp"); (1000, "Pause"); (2960, "Cast")]
  /\ map (fun e => (ev_primary e, sk_name (ev_skill e))) (timeline ic_r') = [(0, "Sharp"); (2000, "Cast")].
Proof. split; vm_compute; reflexivity. Qed.

(** Trailing ticks ignored: the wait is the last event, and ticks before it show. *)
Definition il_start : res builder := id_start false true (Some 0) (RWTuple []).
Definition il_l1 : list instr := [PressAt 0 (tap "Burn" None); PressAt 3 (tap "Hit" None)].
Definition il_l : list instr := (il_l1 ++ [PressAt 12 pause])%list.
Definition il_run (l : list instr) : res builder := let* b := il_start in follow b l.
Definition il_b0 : builder := fst (ran il_start).
Definition il_b : builder := fst (ran (il_run il_l)).
Definition il_r : builder := snd (ran (il_run il_l)).
Definition il_b' : builder := fst (ran (il_run il_l1)).
Definition il_r' : builder := snd (ran (il_run il_l1)).
Lemma il_ok : il_start = Ok il_b0 /\ follow il_b0 il_l = Ok il_b /\ get_skill_timing il_b = Ok il_r
  /\ follow il_b0 il_l1 = Ok il_b' /\ get_skill_timing il_b' = Ok il_r'.
Proof. split; [vm_compute; reflexivity|]. split; [vm_compute; reflexivity|]. split; [vm_compute; reflexivity|]. split; vm_compute; reflexivity. Qed.
Lemma il_settings : b_autos il_b0 = false /\ b_library il_b0 = id_library /\ b_stats il_b0 = fx_stats.
Proof. split; [vm_compute; reflexivity|]. split; vm_compute; reflexivity. Qed.
Lemma il_distinct : distinct_times il_b.
Proof. vm_compute. repeat constructor; simpl; intuition discriminate. Qed.
Lemma il_skills : skills_of il_b = [fx_burn; fx_hit; id_pause] /\ get_all_resource_settings (b_library il_b) (st_job (b_stats il_b)) = Ok [].
Proof. split; vm_compute; reflexivity. Qed.
Lemma il_uncounted : uncounted il_b "Pause".
Proof.
  destruct il_skills as (S & R). apply (plain_uncounted _ _ _ S R). repeat constructor; (eexists; split; [reflexivity|]; split; repeat constructor).
Qed.
Lemma il_shown : map (fun e => (ev_primary e, sk_name (ev_skill e))) (timeline il_r)
    = [(0, "Burn"); (0, "Burn (tick)"); (0, "Burn (tick)"); (0, "Burn (tick)"); (0, "Burn (tick)"); (3000, "Hit"); (12000, "Pause")]
  /\ map (fun e => (ev_primary e, sk_name (ev_skill e))) (timeline il_r') = [(0, "Burn"); (0, "Burn (tick)"); (0, "Burn (tick)"); (3000, "Hit")].
Proof. split; vm_compute; reflexivity. Qed.

(** Autos on: the wait ends the channel, and autos resume. *)
Definition ia_start : res builder := id_start true false (Some 0) (RWTuple []).
Definition ia_l1 : list instr := [PressAt 0 (tap "Hit" None); PressAt 2 (tap "Spray" None)].
Definition ia_l2 : list instr := [PressAt 9 (tap "Hit" None)].
Definition ia_l : list instr := (ia_l1 ++ PressAt 3 pause :: ia_l2)%list.
Definition ia_run (l : list instr) : res builder := let* b := ia_start in follow b l.
Definition ia_b0 : builder := fst (ran ia_start).
Definition ia_b : builder := fst (ran (ia_run ia_l)).
Definition ia_r : builder := snd (ran (ia_run ia_l)).
Definition ia_b' : builder := fst (ran (ia_run (ia_l1 ++ ia_l2))).
Definition ia_r' : builder := snd (ran (ia_run (ia_l1 ++ ia_l2))).
Lemma ia_ok : ia_start = Ok ia_b0 /\ follow ia_b0 ia_l = Ok ia_b /\ get_skill_timing ia_b = Ok ia_r
  /\ follow ia_b0 (ia_l1 ++ ia_l2) = Ok ia_b' /\ get_skill_timing ia_b' = Ok ia_r'.
Proof. split; [vm_compute; reflexivity|]. split; [vm_compute; reflexivity|]. split; [vm_compute; reflexivity|]. split; vm_compute; reflexivity. Qed.
Lemma ia_settings : b_ignore_trailing ia_b0 = false /\ b_library ia_b0 = id_library /\ b_stats ia_b0 = fx_stats.
Proof. split; [vm_compute; reflexivity|]. split; vm_compute; reflexivity. Qed.
Lemma ia_distinct : distinct_times ia_b.
Proof. vm_compute. repeat constructor; simpl; intuition discriminate. Qed.
Lemma ia_skills : skills_of ia_b = [fx_hit; sh_channel; id_pause; fx_hit] /\ get_all_resource_settings (b_library ia_b) (st_job (b_stats ia_b)) = Ok [].
Proof. split; vm_compute; reflexivity. Qed.
Lemma ia_uncounted : uncounted ia_b "Pause".
Proof.
  destruct ia_skills as (S & R). apply (plain_uncounted _ _ _ S R). repeat constructor; (eexists; split; [reflexivity|]; split; repeat constructor).
Qed.
Lemma ia_shown : map (fun e => (ev_primary e, sk_name (ev_skill e))) (timeline ia_r)
    = [(0, "Hit"); (500, "Auto"); (2000, "Spray"); (3000, "Pause"); (3940, "Auto"); (7380, "Auto"); (9000, "Hit")]
  /\ map (fun e => (ev_primary e, sk_name (ev_skill e))) (timeline ia_r') = [(0, "Hit"); (500, "Auto"); (2000, "Spray"); (9000, "Auto"); (9000, "Hit")].
Proof. split; vm_compute; reflexivity. Qed.

(** In sequence, a wait longer than the recast: what follows is later. *)
Definition io_l1 : list instr := [NextPress (tap "Hit" None) 1].
Definition io_l2 : list instr := [NextPress (tap "Hit" None) 1].
Definition io_l : list instr := (io_l1 ++ NextPress (tap "Rest" None) 1 :: io_l2)%list.
Definition io_b1 : builder := fst (ran (is_run io_l1)).
Definition io_b : builder := fst (ran (is_run io_l)).
Definition io_r : builder := snd (ran (is_run io_l)).
Definition io_b' : builder := fst (ran (is_run (io_l1 ++ io_l2))).
Definition io_r' : builder := snd (ran (is_run (io_l1 ++ io_l2))).
Lemma io_ok : follow is_b0 io_l1 = Ok io_b1 /\ follow is_b0 io_l = Ok io_b /\ get_skill_timing io_b = Ok io_r
  /\ follow is_b0 (io_l1 ++ io_l2) = Ok io_b' /\ get_skill_timing io_b' = Ok io_r'.
Proof. split; [vm_compute; reflexivity|]. split; [vm_compute; reflexivity|]. split; [vm_compute; reflexivity|]. split; vm_compute; reflexivity. Qed.
Lemma io_shown : map (fun e => (ev_primary e, sk_name (ev_skill e))) (timeline io_r) = [(0, "Hit"); (650, "Rest"); (4650, "Hit")]
  /\ map (fun e => (ev_primary e, sk_name (ev_skill e))) (timeline io_r') = [(0, "Hit"); (2440, "Hit")].
Proof. split; vm_compute; reflexivity. Qed.
Lemma io_skills : skills_of io_b = [fx_hit; id_long; fx_hit] /\ map sq_skill (b_sequence io_b) = [fx_hit; id_long; fx_hit] /\ b_timed io_b = []
  /\ get_all_resource_settings (b_library io_b) (st_job (b_stats io_b)) = Ok [].
Proof. split; [vm_compute; reflexivity|]. split; [vm_compute; reflexivity|]. split; vm_compute; reflexivity. Qed.
Lemma io_uncounted : uncounted io_b "Rest".
Proof.
  destruct io_skills as (S & _ & _ & R). apply (plain_uncounted _ _ _ S R). repeat constructor; (eexists; split; [reflexivity|]; split; repeat constructor).
Qed.
Lemma io_locks : nonneg_locks io_b.
Proof. destruct io_skills as (_ & S & T & _). apply (fixed_locks _ _ S T). vm_compute. reflexivity. Qed.
Lemma io_found : get_skill (b_library is_b0) "Rest" (st_job (b_stats is_b0)) = Ok id_long.
Proof. vm_compute. reflexivity. Qed.

(** *** The refutations *)
Lemma more_length s r' r : one_more s r' r -> List.length (timeline r) = S (List.length (timeline r')).
Proof. intros ((e & _ & P) & _). apply Permutation_length in P. exact P. Qed.
Lemma more_incl s r' r x : one_more s r' r ->
  In x (map (fun e => (ev_primary e, sk_name (ev_skill e))) (timeline r')) -> In x (map (fun e => (ev_primary e, sk_name (ev_skill e))) (timeline r)).
Proof. intros ((e & _ & P) & _) I. apply (Permutation_in _ (Permutation_map _ (Permutation_sym P))). right. exact I. Qed.
Lemma shown_length {B} (f : event -> B) r l : map f (timeline r) = l -> List.length (timeline r) = List.length l.
Proof. intros <-. symmetry. apply map_length. Qed.

Lemma counted_refuted :
  ~ (forall b0 l1 t c l2 s b r,
       built b0 -> b_autos b0 = false -> b_ignore_trailing b0 = false -> follow b0 (l1 ++ PressAt t c :: l2) = Ok b -> distinct_times b ->
       get_skill (b_library b0) (c_name c) (match c_job c with Some j => j | None => st_job (b_stats b0) end) = Ok s -> idle s ->
       get_skill_timing b = Ok r ->
       exists b' r', follow b0 (l1 ++ l2) = Ok b' /\ get_skill_timing b' = Ok r' /\ one_more s r' r).
Proof.
  intros H. destruct ic_ok as (S & F & R & F' & R'). destruct ic_settings as (A & T & L & St).
  destruct (H ic_b0 ic_l1 1%Q pause ic_l2 id_pause ic_b ic_r (built_init _ _ _ _ _ _ _ _ _ S) A T F ic_distinct (id_found _ L St) (proj1 id_idle) R) as (b' & r' & F2 & R2 & M).
  rewrite F' in F2. apply (f_equal (fun x => match x with Ok y => y | Err _ => b' end)) in F2. cbn beta iota in F2. subst b'.
  rewrite R' in R2. apply (f_equal (fun x => match x with Ok y => y | Err _ => r' end)) in R2. cbn beta iota in R2. subst r'.
  destruct ic_shown as (E & E'). pose proof (more_incl _ _ _ (2000, "Cast") M) as I. rewrite E, E' in I. specialize (I (or_intror (or_introl eq_refl))).
  cbn [In] in I. destruct I as [I|[I|[I|[]]]]; discriminate I.
Qed.
Lemma trailing_refuted :
  ~ (forall b0 l1 t c l2 s b r,
       built b0 -> b_autos b0 = false -> follow b0 (l1 ++ PressAt t c :: l2) = Ok b -> distinct_times b ->
       get_skill (b_library b0) (c_name c) (match c_job c with Some j => j | None => st_job (b_stats b0) end) = Ok s -> idle s -> uncounted b (sk_name s) ->
       get_skill_timing b = Ok r ->
       exists b' r', follow b0 (l1 ++ l2) = Ok b' /\ get_skill_timing b' = Ok r' /\ one_more s r' r).
Proof.
  intros H. destruct il_ok as (S & F & R & F' & R'). destruct il_settings as (A & L & St).
  destruct (H il_b0 il_l1 12%Q pause [] id_pause il_b il_r (built_init _ _ _ _ _ _ _ _ _ S) A F il_distinct (id_found _ L St) (proj1 id_idle) il_uncounted R) as (b' & r' & F2 & R2 & M).
  rewrite app_nil_r, F' in F2. apply (f_equal (fun x => match x with Ok y => y | Err _ => b' end)) in F2. cbn beta iota in F2. subst b'.
  rewrite R' in R2. apply (f_equal (fun x => match x with Ok y => y | Err _ => r' end)) in R2. cbn beta iota in R2. subst r'.
  destruct il_shown as (E & E'). apply more_length in M. rewrite (shown_length _ _ _ E), (shown_length _ _ _ E') in M. discriminate M.
Qed.
Lemma autos_idle_refuted :
  ~ (forall b0 l1 t c l2 s b r,
       built b0 -> b_ignore_trailing b0 = false -> follow b0 (l1 ++ PressAt t c :: l2) = Ok b -> distinct_times b ->
       get_skill (b_library b0) (c_name c) (match c_job c with Some j => j | None => st_job (b_stats b0) end) = Ok s -> idle s -> uncounted b (sk_name s) ->
       get_skill_timing b = Ok r ->
       exists b' r', follow b0 (l1 ++ l2) = Ok b' /\ get_skill_timing b' = Ok r' /\ one_more s r' r).
Proof.
  intros H. destruct ia_ok as (S & F & R & F' & R'). destruct ia_settings as (T & L & St).
  destruct (H ia_b0 ia_l1 3%Q pause ia_l2 id_pause ia_b ia_r (built_init _ _ _ _ _ _ _ _ _ S) T F ia_distinct (id_found _ L St) (proj1 id_idle) ia_uncounted R) as (b' & r' & F2 & R2 & M).
  rewrite F' in F2. apply (f_equal (fun x => match x with Ok y => y | Err _ => b' end)) in F2. cbn beta iota in F2. subst b'.
  rewrite R' in R2. apply (f_equal (fun x => match x with Ok y => y | Err _ => r' end)) in R2. cbn beta iota in R2. subst r'.
  destruct ia_shown as (E & E'). apply more_length in M. rewrite (shown_length _ _ _ E), (shown_length _ _ _ E') in M. discriminate M.
Qed.
Lemma unfit_refuted :
  ~ (forall b0 l1 c l2 s b r,
       built b0 -> b_autos b0 = false -> b_ignore_trailing b0 = false -> follow b0 (l1 ++ NextPress c 1 :: l2) = Ok b ->
       get_skill (b_library b0) (c_name c) (match c_job c with Some j => j | None => st_job (b_stats b0) end) = Ok s -> idle s ->
       sk_is_GCD s = false -> uncounted b (sk_name s) -> nonneg_locks b -> get_skill_timing b = Ok r ->
       exists b' r', follow b0 (l1 ++ l2) = Ok b' /\ get_skill_timing b' = Ok r' /\ one_more s r' r).
Proof.
  intros H. destruct is_ok as (S & _). destruct io_ok as (_ & F & R & F' & R'). destruct is_settings as (A & T & _).
  destruct (H is_b0 io_l1 (tap "Rest" None) io_l2 id_long io_b io_r (built_init _ _ _ _ _ _ _ _ _ S) A T F io_found (proj2 id_idle) eq_refl io_uncounted io_locks R) as (b' & r' & F2 & R2 & M).
  rewrite F' in F2. apply (f_equal (fun x => match x with Ok y => y | Err _ => b' end)) in F2. cbn beta iota in F2. subst b'.
  rewrite R' in R2. apply (f_equal (fun x => match x with Ok y => y | Err _ => r' end)) in R2. cbn beta iota in R2. subst r'.
  destruct io_shown as (E & E'). pose proof (more_incl _ _ _ (2440, "Hit") M) as I. rewrite E, E' in I. specialize (I (or_intror (or_introl eq_refl))).
  cbn [In] in I. destruct I as [I|[I|[I|[]]]]; discriminate I.
Qed.
