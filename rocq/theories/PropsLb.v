(** * C88: the damage that a kill time is estimated from; C30: reading channeling windows *)

From Coq Require Import ZArith NArith QArith List String Bool.
From Verif Require Import Base Types Lookup Stats Library Channeling Events Rotation DamageBuild Damage KillTime SpecTrackers SpecReport SpecLb LbFacts LbCase Fixtures ShuffleCase.
Import ListNotations.
Open Scope string_scope.
Open Scope Z_scope.

(** ** C88 *)

(** One row for each hit of the rotation, at its time: its sampled damage, or for a limit
    break what its condition says. *)
Theorem C88_rows n b u b' rows : rotation_rows n b u = Ok (b', rows) ->
  exists tk tk' qu' hits xs, db_init (b_stats b) (b_library b) = Ok tk /\ get_skill_timing b = Ok b'
    /\ get_damage_instances tk (b_queue b') = Ok (tk', qu', hits) /\ in_time_order hits xs /\ List.length rows = List.length xs
    /\ forall i x, nth_error xs i = Some x -> exists cells, nth_error rows i = Some (di_time x, cells)
         /\ (~ limit_break (sk_name (di_skill x)) -> exists r, row_of (b_stats b) x = Ok r
               /\ cells = map (fun j => fst (fst (sample_cell r (rd_sample u i j)))) (seq 0 n))
         /\ (limit_break (sk_name (di_skill x)) -> forall c, sm_cond (di_modifier x) = [c] -> get_lb_damage c n (rd_lb u i) = Ok cells).
Proof. exact (kill_rows n b u b' rows). Qed.
Print Assumptions C88_rows.

(** "Mean Damage: n" rolls between 95 and 105 percent of [n]. *)
Theorem C88_mean c n k u : written "Mean Damage:" n c -> (n <= 100000000)%N -> (forall j, (0 <= u j < 1)%Q) ->
  exists l, get_lb_damage c k u = Ok l /\ List.length l = k
    /\ forall j d, nth_error l j = Some d -> exists z, let y := (inject_Z (Z.of_N n) * ((95 # 100) + (1 # 10) * u j))%Q in
         (d == inject_Z z)%Q /\ (y - 1 - (1 # 1000000) < inject_Z z <= y + (1 # 1000000))%Q.
Proof. exact (lb_mean c n k u). Qed.
Print Assumptions C88_mean.

(** "Exact Damage: n" is [n]. *)
Theorem C88_exact c n k u : written "Exact Damage:" n c -> (n <= 2 ^ 53)%N ->
  exists l, get_lb_damage c k u = Ok l /\ List.length l = k /\ forall d, In d l -> (d == inject_Z (Z.of_N n))%Q.
Proof. exact (lb_exact c n k u). Qed.
Print Assumptions C88_exact.

(** Any other condition raises RuntimeError. *)
Theorem C88_raises c k u : (forall n, ~ written "Mean Damage:" n c /\ ~ written "Exact Damage:" n c) <-> get_lb_damage c k u = Err RuntimeError.
Proof. exact (lb_raises c k u). Qed.
Print Assumptions C88_raises.

(** The number is the one that is written. *)
Theorem C88_one_number label n n' c : written label n c -> written label n' c -> n = n'.
Proof. exact (written_one label n n' c). Qed.
Print Assumptions C88_one_number.

(** A Samurai's limit break between two hits; without a label it raises. *)
Example C88_case :
  written "Mean Damage:" 1234567 "Mean Damage: 1234567" /\ written "Exact Damage:" 1234567 "Exact Damage: 1234567 or so"
  /\ lb_shown "Mean Damage: 1234567" = Ok [(850, [7503; 7898]); (9200, [1234567; 1234567]); (12850, [7503; 7898])]
  /\ lb_shown "Exact Damage: 1234567 or so" = lb_shown "Mean Damage: 1234567" /\ lb_shown "1234567" = Err RuntimeError.
Proof. destruct lb_words as (A & B), lb_case as (C & D & E). split; [exact A|]. split; [exact B|]. split; [exact C|]. split; [exact D|exact E]. Qed.

(** ** C30 *)

(** The windows can be read exactly after the tracker is finalized; from then on it takes no
    further uses. *)
Theorem C30_protocol l st : foldM ch_process l ch_init = Ok st ->
  get_channeling_windows st = Err AssertionError
  /\ exists st' ws, ch_finalize st = Ok st' /\ get_channeling_windows st' = Ok ws /\ channel_run l = Ok ws
     /\ ch_finalize st' = Err AssertionError /\ forall u, ch_process st' u = Err AssertionError.
Proof. exact (channel_protocol l st). Qed.
Print Assumptions C30_protocol.

Example C30_protocol_case : exists st ws, foldM ch_process [(0, sh_channel, default_modifier); (1000, fx_hit, default_modifier)] ch_init = Ok st
  /\ channel_run [(0, sh_channel, default_modifier); (1000, fx_hit, default_modifier)] = Ok ws /\ ws = [(0, Fin 1000)].
Proof. eexists. eexists. split; [vm_compute; reflexivity|]. split; vm_compute; reflexivity. Qed.
