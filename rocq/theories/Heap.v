(** * heapq on Python lists.

    [heapq.heappush] / [heapq.heappop] as implemented by CPython
    (Lib/heapq.py: heappush, heappop, _siftdown, _siftup), which
    simulator/timeline_builders/snapshot_and_application_events.py (lines 101, 158),
    damage_builder.py (line 120) and rotation_builder.py (lines 484, 853) call.
    Elements are compared with [<], which may raise.  Positions are [nat]. *)

From Coq Require Import List Arith.
From Verif Require Import Base.
Import ListNotations.

Section Heap.
  Context {A : Type} (lt : A -> A -> res bool).

  (** [l[i] = x] *)
  Fixpoint upd (l : list A) (i : nat) (x : A) : list A :=
    match l, i with
    | [], _ => []
    | _ :: l', O => x :: l'
    | y :: l', S i' => y :: upd l' i' x
    end.

  (** [_siftdown(heap, 0, pos)]: move the item at [pos] towards the root while
      it is smaller than its parent. *)
  Fixpoint siftdown (fuel : nat) (h : list A) (pos : nat) : res (list A) :=
    match fuel with
    | O => Err OutOfFuel
    | S fuel' =>
        match pos with
        | O => Ok h
        | S p =>
            let parent := Nat.div2 p in
            match nth_error h pos, nth_error h parent with
            | Some x, Some y =>
                let* b := lt x y in
                if b then siftdown fuel' (upd (upd h pos y) parent x) parent
                else Ok h
            | _, _ => Err IndexError
            end
        end
    end.

  (** The first loop of [_siftup(heap, 0)]: bubble the smaller child up until
      a leaf is hit; returns the leaf position as well. *)
  Fixpoint siftup_leaf (fuel : nat) (h : list A) (pos : nat) : res (list A * nat) :=
    match fuel with
    | O => Err OutOfFuel
    | S fuel' =>
        let l := (2 * pos + 1)%nat in
        let r := (2 * pos + 2)%nat in
        match nth_error h pos, nth_error h l with
        | Some x, Some lx =>
            match nth_error h r with
            | Some rx =>
                let* b := lt lx rx in
                if b then siftup_leaf fuel' (upd (upd h pos lx) l x) l
                else siftup_leaf fuel' (upd (upd h pos rx) r x) r
            | None => siftup_leaf fuel' (upd (upd h pos lx) l x) l
            end
        | Some _, None => Ok (h, pos)
        | None, _ => Err IndexError
        end
    end.

  Definition heappush (h : list A) (x : A) : res (list A) :=
    siftdown (S (length h)) (h ++ [x]) (length h).

  Definition heappop (h : list A) : res (A * list A) :=
    match h with
    | [] => Err IndexError
    | top :: _ =>
        let lastelt := last h top in
        match removelast h with
        | [] => Ok (lastelt, [])
        | _ :: rest =>
            let h1 := lastelt :: rest in
            let* (h2, pos) := siftup_leaf (length h1) h1 0 in
            let* h3 := siftdown (length h1) h2 pos in
            Ok (top, h3)
        end
    end.

  (** Pop until empty (the drain loops [while not is_empty(): get_next()]). *)
  Fixpoint drain (fuel : nat) (h : list A) : res (list A) :=
    match h with
    | [] => Ok []
    | _ =>
        match fuel with
        | O => Err OutOfFuel
        | S fuel' =>
            let* (x, h') := heappop h in
            let* rest := drain fuel' h' in
            Ok (x :: rest)
        end
    end.
End Heap.
