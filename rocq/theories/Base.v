(** * Basic vocabulary shared by all model files.

    Nothing here models a particular function of the simulator; these are the
    Python notions the model is written in: exceptions, possibly infinite
    integers, insertion-ordered dicts, [list.sort(key=...)]. *)

From Coq Require Import ZArith List String Bool Lia.
Import ListNotations.
Open Scope Z_scope.

(** ** Exceptions as values *)

(** The Python exceptions raised in the modelled code, plus [OutOfFuel] for a
    loop whose fuel was exhausted (a non-terminating Python loop) and
    [Unmodelled] where a run leaves the part of Python the model covers. *)
Inductive err : Set :=
| KeyError | AssertionError | TypeError | ValueError | IndexError
| ZeroDivisionError | RuntimeError | AttributeError | OutOfFuel | Unmodelled.

Inductive res (A : Type) : Type :=
| Ok (a : A)
| Err (e : err).
Arguments Ok {A} a.
Arguments Err {A} e.

Definition bind {A B} (m : res A) (f : A -> res B) : res B :=
  match m with Ok a => f a | Err e => Err e end.

Notation "'let*' p ':=' m 'in' f" :=
  (bind m (fun x => match x with p => f end))
  (at level 61, p pattern, m at next level, right associativity).

Definition is_ok {A} (m : res A) : bool :=
  match m with Ok _ => true | Err _ => false end.

(** A [for] loop whose body may raise. *)
Fixpoint foldM {A S} (f : S -> A -> res S) (l : list A) (s : S) : res S :=
  match l with
  | [] => Ok s
  | a :: l' => bind (f s a) (foldM f l')
  end.

Fixpoint mapM {A B} (f : A -> res B) (l : list A) : res (list B) :=
  match l with
  | [] => Ok []
  | a :: l' => bind (f a) (fun b => bind (mapM f l') (fun bs => Ok (b :: bs)))
  end.

Definition of_option {A} (e : err) (o : option A) : res A :=
  match o with Some a => Ok a | None => Err e end.

(** ** Integers extended with [math.inf] *)

Inductive ext : Set := Fin (z : Z) | Inf.

Definition ext_add (a b : ext) : ext :=
  match a, b with Fin x, Fin y => Fin (x + y) | _, _ => Inf end.
(** [a - z] for a finite [z]. *)
Definition ext_subz (a : ext) (z : Z) : ext :=
  match a with Fin x => Fin (x - z) | Inf => Inf end.
Definition ext_min (a b : ext) : ext :=
  match a, b with
  | Fin x, Fin y => Fin (Z.min x y)
  | Fin x, Inf => Fin x
  | Inf, b => b
  end.
Definition ext_max0 (a : ext) : ext :=
  match a with Fin x => Fin (Z.max x 0) | Inf => Inf end.
(** [z > a] *)
Definition z_gt_ext (z : Z) (a : ext) : bool :=
  match a with Fin x => x <? z | Inf => false end.
(** [a > 0] *)
Definition ext_pos (a : ext) : bool :=
  match a with Fin x => 0 <? x | Inf => true end.
Definition ext_eqb (a b : ext) : bool :=
  match a, b with
  | Fin x, Fin y => x =? y
  | Inf, Inf => true
  | _, _ => false
  end.
Definition ext_is0 (a : ext) : bool := ext_eqb a (Fin 0).
Definition ext_le (a b : ext) : Prop :=
  match a, b with
  | Fin x, Fin y => x <= y
  | Fin _, Inf => True
  | Inf, Inf => True
  | Inf, Fin _ => False
  end.

(** ** Dicts with string keys, in insertion order *)

Definition dict (V : Type) := list (string * V).

Fixpoint dget {V} (k : string) (d : dict V) : option V :=
  match d with
  | [] => None
  | (k', v) :: d' => if String.eqb k k' then Some v else dget k d'
  end.

(** [d[k] = v]: update in place, else append at the end. *)
Fixpoint dset {V} (k : string) (v : V) (d : dict V) : dict V :=
  match d with
  | [] => [(k, v)]
  | (k', v') :: d' =>
      if String.eqb k k' then (k', v) :: d' else (k', v') :: dset k v d'
  end.

(** [del d[k]] *)
Fixpoint ddel {V} (k : string) (d : dict V) : dict V :=
  match d with
  | [] => []
  | (k', v') :: d' => if String.eqb k k' then d' else (k', v') :: ddel k d'
  end.

Definition dmem {V} (k : string) (d : dict V) : bool :=
  match dget k d with Some _ => true | None => false end.

Definition dkeys {V} (d : dict V) : list string := map fst d.

(** Dicts with integer keys (combo groups). *)
Definition zdict (V : Type) := list (Z * V).
Fixpoint zget {V} (k : Z) (d : zdict V) : option V :=
  match d with
  | [] => None
  | (k', v) :: d' => if k =? k' then Some v else zget k d'
  end.
Fixpoint zset {V} (k : Z) (v : V) (d : zdict V) : zdict V :=
  match d with
  | [] => [(k, v)]
  | (k', v') :: d' => if k =? k' then (k', v) :: d' else (k', v') :: zset k v d'
  end.

(** ** Lists of strings used as sets and tuples *)

Definition smem (x : string) (l : list string) : bool := existsb (String.eqb x) l.
(** [set.add] *)
Definition sadd (x : string) (l : list string) : list string :=
  if smem x l then l else l ++ [x].
(** [set.discard] *)
Definition sremove (x : string) (l : list string) : list string :=
  filter (fun y => negb (String.eqb x y)) l.

(** ** [list.sort()]: a stable sort that only uses [<], modelled as insertion sort *)

Section SortLt.
  Context {A : Type} (ltb : A -> A -> bool).
  (** Insert before the first element strictly greater than [a]. *)
  Fixpoint insert_lt (a : A) (l : list A) : list A :=
    match l with
    | [] => [a]
    | b :: l' => if ltb a b then a :: b :: l' else b :: insert_lt a l'
    end.
  (** Elements are inserted from left to right, so ties keep their order. *)
  Definition sort_lt (l : list A) : list A :=
    fold_left (fun acc a => insert_lt a acc) l [].
End SortLt.

(** [l.sort(key=...)] with an integer key. *)
Definition sort_by {A} (key : A -> Z) : list A -> list A :=
  sort_lt (fun a b => key a <? key b).

(** [enumerate(l)] *)
Fixpoint enum_from {A} (i : Z) (l : list A) : list (Z * A) :=
  match l with
  | [] => []
  | a :: l' => (i, a) :: enum_from (i + 1) l'
  end.
Definition enumerate {A} (l : list A) : list (Z * A) := enum_from 0 l.

(** Lexicographic comparison of Python strings. *)
Definition str_ltb (a b : string) : bool :=
  match String.compare a b with Lt => true | _ => false end.
Definition str_leb (a b : string) : bool :=
  match String.compare a b with Gt => false | _ => true end.

(** Lexicographic comparison of tuples of strings. *)
Fixpoint strs_ltb (a b : list string) : bool :=
  match a, b with
  | [], [] => false
  | [], _ :: _ => true
  | _ :: _, [] => false
  | x :: a', y :: b' =>
      if String.eqb x y then strs_ltb a' b' else str_ltb x y
  end.

Section ListEqb.
  Context {A : Type} (eqb : A -> A -> bool).
  Fixpoint list_eqb (l1 l2 : list A) : bool :=
    match l1, l2 with
    | [], [] => true
    | a :: l1', b :: l2' => eqb a b && list_eqb l1' l2'
    | _, _ => false
    end.
End ListEqb.

Definition opt_eqb {A} (eqb : A -> A -> bool) (a b : option A) : bool :=
  match a, b with
  | Some x, Some y => eqb x y
  | None, None => true
  | _, _ => false
  end.
