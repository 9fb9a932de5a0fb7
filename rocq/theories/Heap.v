(** * Heap: the binary heap algorithm shared by CPython's heapq and
      priority_queue.pyx *)
From Coq Require Import List ZArith Lia Bool Arith.
From Verif Require Import Base.
Import ListNotations.

Section Heap.
Context {A : Type}.
Variable key : A -> ext.

(** [__lt__] on heap items: agents compare by [_time] (agents.py:46-47,
    182-183); PriorityQueue compares the double stored in [heap]
    (priority_queue.pyx:142). *)
Definition klt (a b : A) : bool := eltb (key a) (key b).

(** The while loop of [_siftdown] (priority_queue.pyx:137-149; CPython
    Lib/heapq.py _siftdown).  [x] is [newitem].  [None]: an index is out of
    range, or the fuel is used up (which never happens with the fuel given
    below; proved in HeapProofs.v). *)
Fixpoint siftdown_loop (fuel : nat) (h : list A) (startpos pos : nat) (x : A)
  : option (list A) :=
  match fuel with
  | O => None
  | S f =>
    if startpos <? pos then
      let parentpos := (pos - 1) / 2 in
      match get h parentpos with
      | None => None
      | Some parent =>
        if klt x parent then
          match set h pos parent with
          | None => None
          | Some h' => siftdown_loop f h' startpos parentpos x
          end
        else set h pos x
      end
    else set h pos x
  end.

(** [_siftdown(heap, startpos, pos)] (priority_queue.pyx:131-149). *)
Definition siftdown (h : list A) (startpos pos : nat) : option (list A) :=
  match get h pos with
  | None => None
  | Some x => siftdown_loop (S pos) h startpos pos x
  end.

(** The while loop of [_siftup] (priority_queue.pyx:164-177): moves the
    smaller child up until a leaf is reached; returns array and leaf. *)
Fixpoint siftup_loop (fuel : nat) (h : list A) (pos endpos : nat)
  : option (list A * nat) :=
  match fuel with
  | O => None
  | S f =>
    let childpos := 2 * pos + 1 in
    if childpos <? endpos then
      let rightpos := childpos + 1 in
      match get h childpos with
      | None => None
      | Some l =>
        let pick :=
          if rightpos <? endpos then
            match get h rightpos with
            | None => None
            | Some r => Some (if klt l r then childpos else rightpos)
            end
          else Some childpos in
        match pick with
        | None => None
        | Some c =>
          match get h c with
          | None => None
          | Some y =>
            match set h pos y with
            | None => None
            | Some h' => siftup_loop f h' c endpos
            end
          end
        end
      end
    else Some (h, pos)
  end.

(** [_siftup(heap, pos, endpos)] (priority_queue.pyx:156-183); heapq's
    version has [endpos = len(heap)]. *)
Definition siftup (h : list A) (pos endpos : nat) : option (list A) :=
  match get h pos with
  | None => None
  | Some x =>
    match siftup_loop (S endpos) h pos endpos with
    | None => None
    | Some (h', leaf) =>
      match set h' leaf x with
      | None => None
      | Some h'' => siftdown h'' pos leaf
      end
    end
  end.

(** [for i in reversed(range(k)): _siftup(heap, i, n)]
    (priority_queue.pyx:189-192 with [k = n//2]). *)
Fixpoint heapify_loop (k : nat) (h : list A) (n : nat) : option (list A) :=
  match k with
  | O => Some h
  | S k' =>
    match siftup h k' n with
    | None => None
    | Some h' => heapify_loop k' h' n
    end
  end.

(** [heapify(heap, hmap, n)] (priority_queue.pyx:189-192). *)
Definition heapify (h : list A) (n : nat) : option (list A) :=
  heapify_loop (n / 2) h n.

(** heapq.heappush: append and sift down (CPython Lib/heapq.py). *)
Definition heappush (h : list A) (x : A) : option (list A) :=
  siftdown (h ++ [x]) 0 (length h).

(** heapq.heappop (CPython Lib/heapq.py): remove the last element; if any
    is left, put it at the root, sift up, and return the old root. *)
Definition heappop (h : list A) : option (A * list A) :=
  match rev h with
  | [] => None
  | lastelt :: r =>
    match rev r with
    | [] => Some (lastelt, [])
    | returnitem :: _ =>
      let h1 := rev r in
      match set h1 0 lastelt with
      | None => None
      | Some h2 =>
        match siftup h2 0 (length h2) with
        | None => None
        | Some h3 => Some (returnitem, h3)
        end
      end
    end
  end.

End Heap.
