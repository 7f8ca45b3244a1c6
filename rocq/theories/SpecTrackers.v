(** * Specification vocabulary for combos, job resources and channeling (C28-C30) *)

From Coq Require Import ZArith List String Bool.
From Verif Require Import Base Strings Types Lookup Combo JobResource Channeling.
Import ListNotations.
Open Scope Z_scope.

(** ** Combos (C28) *)

(** Per combo group: when and what was last used successfully, if that still stands. *)
Definition combo_state := Z -> option (Z * string).
(** The state a tracker stands for. *)
Definition combo_view (ct : combo_tracker) : combo_state :=
  fun g => match zget g (ct_last ct) with Some o => o | None => None end.
(** Using group [g] breaks group [h]. *)
Definition breaks (breakers : zdict (list Z)) (g h : Z) : Prop :=
  exists l, In (h, l) breakers /\ In g l.

Definition combo_ok (last : combo_state) (t : Z) (c : combo_spec) (m : modifier) : Prop :=
  combo_auto_succeed c = true \/ sm_force_combo m = true \/ combo_actions c = []
  \/ exists t0 prev, last (combo_group c) = Some (t0, prev) /\ t - t0 <= 30000
       /\ In prev (combo_actions c).

(** One combo spec of a skill called [name] is processed; [ok] says it succeeded. *)
Inductive combo_used (br : zdict (list Z)) (t : Z) (name : string) (m : modifier)
  : combo_state -> combo_spec -> bool -> combo_state -> Prop :=
| cu_break_all last c last' :
    break_all_combos_only c = true -> (forall h, last' h = None) ->
    combo_used br t name m last c true last'
| cu_action last c last' (ok : bool) :
    break_all_combos_only c = false ->
    (ok = true <-> combo_ok last t c m) ->
    (forall h, breaks br (combo_group c) h -> last' h = None) ->
    (forall h, ~ breaks br (combo_group c) h -> h <> combo_group c -> last' h = last h) ->
    (~ breaks br (combo_group c) (combo_group c) ->
     last' (combo_group c) = if ok then Some (t, name) else None) ->
    combo_used br t name m last c ok last'.

(** All combo specs of a skill, in order; success needs every one of them. *)
Inductive combos_used (br : zdict (list Z)) (t : Z) (name : string) (m : modifier)
  : combo_state -> list combo_spec -> bool -> combo_state -> Prop :=
| cs_nil last last' : (forall h, last' h = last h) -> combos_used br t name m last [] true last'
| cs_cons last c ok last1 l oks last' :
    combo_used br t name m last c ok last1 ->
    combos_used br t name m last1 l oks last' ->
    combos_used br t name m last (c :: l) (ok && oks) last'.

(** ** Job resources (C29) *)

(** When the resource was last refreshed: the latest refreshing entry, else the first. *)
Definition refreshed_at (l : list jr_entry) : option Z :=
  match find (fun e => jr_refreshes (je_spec e)) (rev l) with
  | Some e => Some (je_start e)
  | None => option_map je_start (hd_error l)
  end.
Definition later_than (t : Z) (e : ext) : Prop := match e with Fin x => x < t | Inf => False end.
(** After the entries [l], at time [t], the resource has run out. *)
Definition run_out (cfg : jr_settings) (l : list jr_entry) (t : Z) : Prop :=
  exists r, refreshed_at l = Some r /\ later_than t (ext_add (Fin r) (jrs_expiry cfg)).
Definition jr_active (t : Z) (e : jr_entry) : bool :=
  (je_start e <=? t) && match je_end e with Fin x => t <=? x | Inf => true end.
(** The split at the last entry recorded after the resource had run out. *)
Definition since_run_out (cfg : jr_settings) (l l1 l2 : list jr_entry) : Prop :=
  l = (l1 ++ l2)%list
  /\ (l1 = [] \/ exists e rest, l2 = e :: rest /\ run_out cfg l1 (je_start e))
  /\ (forall a e b, l2 = (a ++ e :: b)%list -> a <> [] -> ~ run_out cfg (l1 ++ a) (je_start e)).

(** Running sum clamped to [0, max]; clearing sets it to 0. *)
Definition clamped_sum (mx : Z) (l : list jr_entry) : Z :=
  fold_left (fun total e => match jr_change (je_spec e) with
                            | Change z => Z.max 0 (Z.min mx (total + z))
                            | ChangeNegInf => 0
                            end) l 0.

(** Calls of the tracker's API and the entries they record for a resource. *)
Inductive jr_op := JrAdd (t : Z) (s : skill) (m : modifier) | JrCompile (t : Z) (skill_name : string).
Definition jr_apply (tr : jr_tracker) (op : jr_op) : res jr_tracker :=
  match op with
  | JrAdd t s m => add_resource tr t s m
  | JrCompile t n => Ok (fst (compile_job_resources tr t n))
  end.
Definition recorded (name : string) (op : jr_op) : list jr_entry :=
  match op with
  | JrAdd t s m =>
      match get_job_resource_spec s m with
      | Ok specs =>
          flat_map (fun sp =>
            if jr_clear_all sp then [mkJrEntry t Inf (mkJr name ChangeNegInf Inf false false)]
            else if String.eqb (jr_name sp) name
            then [mkJrEntry t (ext_add (Fin t) (jr_duration sp)) sp] else []) specs
      | Err _ => []
      end
  | JrCompile _ _ => []
  end.
Definition jr_history (name : string) (ops : list jr_op) : list jr_entry :=
  flat_map (recorded name) ops.

(** ** Channeling (C30) *)

(** A use of a skill: time, skill, modifier. *)
Definition ch_use := (Z * skill * modifier)%type.
Definition is_wait (s : skill) : bool := contains "Wait" (sk_name s).
Definition channels (u : ch_use) : option channeling_spec :=
  let '(_, s, _) := u in
  if is_wait s then None
  else match sk_channeling s with COne c => Some c | _ => None end.
(** When a channel with these allowed skills and uses left is cut short, if ever. *)
Fixpoint cut_time (allow : list string) (uses : ext) (l : list ch_use) : option Z :=
  match l with
  | [] => None
  | u :: l' =>
      let '(t, s, m) := u in
      if is_wait s then cut_time allow uses l'
      else match channels u with
           | Some _ => Some t
           | None =>
               if smem (sk_name s) allow
               then let uses' := ext_subz uses 1 in
                    if ext_pos uses' then cut_time allow uses' l' else Some t
               else Some t
           end
  end.
Definition channel_end (t : Z) (c : channeling_spec) (l : list ch_use) : ext :=
  match cut_time (ch_allowlist c) (ch_num_uses c) l with
  | Some t' => ext_min (ext_add (Fin t) (ch_duration c)) (Fin t')
  | None => ext_add (Fin t) (ch_duration c)
  end.
Fixpoint windows_of (l : list ch_use) : list (Z * ext) :=
  match l with
  | [] => []
  | u :: l' =>
      match channels u with
      | Some c => (fst (fst u), channel_end (fst (fst u)) c l') :: windows_of l'
      | None => windows_of l'
      end
  end.
Definition ch_process (st : ch_tracker) (u : ch_use) : res ch_tracker :=
  let '(t, s, m) := u in process_channeling st t s m.
Definition channel_run (l : list ch_use) : res (list (Z * ext)) :=
  let* st := foldM ch_process l ch_init in
  let* st := ch_finalize st in
  get_channeling_windows st.
Definition ch_time (u : ch_use) : Z := fst (fst u).
Definition nonneg_duration (u : ch_use) : Prop :=
  forall c, channels u = Some c -> match ch_duration c with Fin d => 0 <= d | Inf => True end.
(** The skill has no table of channeling specs (such a table makes every use raise, C08). *)
Definition ch_plain (u : ch_use) : Prop :=
  match sk_channeling (snd (fst u)) with CDict _ => False | _ => True end.
(** [a] ends before [b] starts. *)
Definition window_before (a b : Z * ext) : Prop := ext_le (snd a) (Fin (fst b)).
