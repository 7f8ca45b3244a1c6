(** * Specification of the event queue (C01-C05)

    Written without the model's queue operations: a bag of events, a counter and
    the order on (priority, skill name). *)

From Coq Require Import ZArith QArith List String Bool Permutation Sorted.
From Verif Require Import Base Types Events.
Import ListNotations.
Open Scope Z_scope.

(** [(priority, name) <= (priority, name)] as Python compares tuples. *)
Definition key_le (a b : event) : Prop :=
  ev_priority a < ev_priority b
  \/ ev_priority a = ev_priority b
     /\ String.compare (sk_name (ev_skill a)) (sk_name (ev_skill b)) <> Gt.

(** The arguments of one call of [add]. *)
Record add_call := mkAdd {
  ad_priority : Z; ad_primary : Z; ad_secondary : option Z;
  ad_skill : skill; ad_modifier : modifier; ad_snap : snap * snap;
  ad_id : option Z; ad_jr_added : bool; ad_jr_cond : bool; ad_combo_cond : bool;
  ad_targets : list string
}.

(** The event a call must store, given the id counter. *)
Definition stored_event (next : Z) (c : add_call) : event :=
  {| ev_priority := ad_priority c;
     ev_primary := ad_primary c;
     ev_secondary :=
       match ad_secondary c with
       | Some t => if Z.eq_dec t (ad_primary c) then None else Some t
       | None => None
       end;
     ev_skill := ad_skill c;
     ev_modifier := ad_modifier c;
     ev_snap :=
       match ad_secondary c with
       | Some t => if Z.eq_dec t (ad_primary c) then (SFlag true, SFlag true) else ad_snap c
       | None => ad_snap c
       end;
     ev_targets := ad_targets c;
     ev_id := match ad_id c with Some i => i | None => next end;
     ev_jr_added := ad_jr_added c;
     ev_jr_cond := ad_jr_cond c;
     ev_combo_cond := ad_combo_cond c |}.

(** The counter after a call. *)
Definition next_after (next : Z) (c : add_call) : Z :=
  match ad_id c with Some _ => next | None => next + 1 end.

(** What a list of calls stores, in call order. *)
Fixpoint stored_events (next : Z) (l : list add_call) : list event :=
  match l with
  | [] => []
  | c :: l' => stored_event next c :: stored_events (next_after next c) l'
  end.

(** Calling the API. *)
Definition api_add (qu : queue) (c : add_call) : res queue :=
  q_add qu (ad_priority c) (ad_primary c) (ad_secondary c) (ad_skill c) (ad_modifier c)
    (ad_snap c) (ad_id c) (ad_jr_added c) (ad_jr_cond c) (ad_combo_cond c) (ad_targets c).

Inductive q_op := OpAdd (c : add_call) | OpNext.

(** One client operation; [OpNext] also yields the popped event. *)
Definition api_op (st : queue * list event) (o : q_op) : res (queue * list event) :=
  let (qu, out) := st in
  match o with
  | OpAdd c => let* q' := api_add qu c in Ok (q', out)
  | OpNext => let* (e, q') := q_get_next qu in Ok (q', (out ++ [e])%list)
  end.

(** Abstract priority queue: a bag, as a relation. *)
Inductive abs_op : list event * Z * list event -> q_op -> list event * Z * list event -> Prop :=
| abs_add bag bag' n out c :
    Permutation bag' (stored_event n c :: bag) ->
    abs_op (bag, n, out) (OpAdd c) (bag', next_after n c, out)
| abs_next bag bag' n out e :
    Permutation bag (e :: bag') ->
    (forall e', In e' bag -> key_le e e') ->
    abs_op (bag, n, out) OpNext (bag', n, (out ++ [e])%list).

Inductive abs_run : list event * Z * list event -> list q_op -> list event * Z * list event -> Prop :=
| abs_nil s : abs_run s [] s
| abs_cons s1 o s2 l s3 : abs_op s1 o s2 -> abs_run s2 l s3 -> abs_run s1 (o :: l) s3.

(** Number of pending events after a prefix of operations never goes negative:
    what a client that checks [is_empty] before [get_next] guarantees. *)
Fixpoint guarded (n : nat) (l : list q_op) : Prop :=
  match l with
  | [] => True
  | OpAdd _ :: l' => guarded (S n) l'
  | OpNext :: l' => exists m, n = S m /\ guarded m l'
  end.

(** Time an event takes effect. *)
Definition effect_time (e : event) (t : Z) : Prop :=
  (ev_secondary e = Some t) \/ (ev_secondary e = None /\ ev_primary e = t).
