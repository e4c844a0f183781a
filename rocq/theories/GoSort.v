(** * sort.Slice as of Go 1.15: package sort, slice.go and zfuncversion.go

    Used by cmd/print.go:54-58.  The other commands of the model only rely on
    what the documentation says about it (a sorted permutation). *)
From Verif Require Import Base.

Section Sort.
Context {A : Type}.
Variable lt : A -> A -> bool.

(** The slice is a list; [less] and [swap] are the two methods of lessSwap. *)
Definition less (l : list A) (i j : nat) : bool :=
  match nth_error l i, nth_error l j with
  | Some x, Some y => lt x y
  | _, _ => false
  end.
Fixpoint set_nth (i : nat) (x : A) (l : list A) : list A :=
  match l, i with
  | [], _ => []
  | _ :: l', O => x :: l'
  | y :: l', S i' => y :: set_nth i' x l'
  end.
Definition swap (l : list A) (i j : nat) : list A :=
  match nth_error l i, nth_error l j with
  | Some x, Some y => set_nth i y (set_nth j x l)
  | _, _ => l
  end.
Definition swap_if (b : bool) (l : list A) (i j : nat) : list A := if b then swap l i j else l.

(** insertionSort_func: the inner loop at [j], the outer one at [i]. *)
Fixpoint insert_down (n : nat) (l : list A) (a j : nat) : list A :=
  match n with
  | O => l
  | S n' => if (a <? j)%nat && less l j (j - 1) then insert_down n' (swap l j (j - 1)) a (j - 1) else l
  end.
Fixpoint insertions (n : nat) (l : list A) (a i : nat) : list A :=
  match n with
  | O => l
  | S n' => insertions n' (insert_down i l a i) a (S i)
  end.
Definition insertionSort (l : list A) (a b : nat) : list A := insertions (b - (a + 1)) l a (a + 1).

(** siftDown_func *)
Fixpoint siftDown (n : nat) (l : list A) (root hi first : nat) : list A :=
  match n with
  | O => l
  | S n' =>
      let child := (2 * root + 1)%nat in
      if (hi <=? child)%nat then l
      else
        let child := if (child + 1 <? hi)%nat && less l (first + child) (first + child + 1)
                     then (child + 1)%nat else child in
        if negb (less l (first + root) (first + child)) then l
        else siftDown n' (swap l (first + root) (first + child)) child hi first
  end.

(** heapSort_func: building the heap, then popping the largest. *)
Fixpoint heap_up (i : nat) (l : list A) (hi first : nat) : list A :=
  match i with
  | O => siftDown (S hi) l 0 hi first
  | S i' => heap_up i' (siftDown (S hi) l i hi first) hi first
  end.
Fixpoint heap_pop (n : nat) (l : list A) (first : nat) : list A :=
  match n with
  | O => l
  | S i => heap_pop i (siftDown (S i) (swap l first (first + i)) 0 i first) first
  end.
Definition heapSort (l : list A) (a b : nat) : list A :=
  let hi := (b - a)%nat in
  heap_pop hi (heap_up ((hi - 1) / 2) l hi a) a.

(** medianOfThree_func *)
Definition medianOfThree (l : list A) (m1 m0 m2 : nat) : list A :=
  let l := swap_if (less l m1 m0) l m1 m0 in
  if less l m2 m1 then
    let l := swap l m2 m1 in
    swap_if (less l m1 m0) l m1 m0
  else l.

(** The loops of doPivot_func: an index moved up or down while a condition holds
    ([n] bounds the number of steps). *)
Fixpoint up_while (n : nat) (p : nat -> bool) (i lim : nat) : nat :=
  match n with
  | O => i
  | S n' => if (i <? lim)%nat && p i then up_while n' p (S i) lim else i
  end.
Fixpoint down_while (n : nat) (p : nat -> bool) (i lim : nat) : nat :=
  match n with
  | O => i
  | S n' => if (lim <? i)%nat && p (i - 1)%nat then down_while n' p (i - 1) lim else i
  end.

(** data[a <= i < b] unexamined, data[b-1 <= i < c] too: the first partition *)
Fixpoint partition (n : nat) (l : list A) (pivot b c : nat) : list A * nat * nat :=
  match n with
  | O => (l, b, c)
  | S n' =>
      let b := up_while n (fun i => negb (less l pivot i)) b c in
      let c := down_while n (fun i => less l pivot i) c b in
      if (c <=? b)%nat then (l, b, c)
      else partition n' (swap l b (c - 1)) pivot (S b) (c - 1)
  end.
(** ... and the one that gathers what equals the pivot *)
Fixpoint gather (n : nat) (l : list A) (pivot a b : nat) : list A * nat :=
  match n with
  | O => (l, b)
  | S n' =>
      let b := down_while n (fun i => negb (less l i pivot)) b a in
      let a := up_while n (fun i => less l i pivot) a b in
      if (b <=? a)%nat then (l, b)
      else gather n' (swap l a (b - 1)) pivot (S a) (b - 1)
  end.

(** doPivot_func *)
Definition doPivot (l : list A) (lo hi : nat) : list A * nat * nat :=
  let n := (hi - lo)%nat in
  let m := ((lo + hi) / 2)%nat in
  let l :=
    if (40 <? n)%nat then
      let s := (n / 8)%nat in
      let l := medianOfThree l lo (lo + s) (lo + 2 * s) in
      let l := medianOfThree l m (m - s) (m + s) in
      medianOfThree l (hi - 1) (hi - 1 - s) (hi - 1 - 2 * s)
    else l in
  let l := medianOfThree l lo m (hi - 1) in
  let pivot := lo in
  let a := up_while n (fun i => less l i pivot) (lo + 1) (hi - 1) in
  let '(l, b, c) := partition n l pivot a (hi - 1) in
  let protect := (hi - c <? 5)%nat in
  let '(l, b, c, protect) :=
    if negb protect && (hi - c <? n / 4)%nat then
      let '(l, c, dups) :=
        if negb (less l pivot (hi - 1)) then (swap l c (hi - 1), S c, 1%nat) else (l, c, 0%nat) in
      let '(b, dups) := if negb (less l (b - 1) pivot) then ((b - 1)%nat, S dups) else (b, dups) in
      let '(l, b, dups) :=
        if negb (less l m pivot) then (swap l m (b - 1), (b - 1)%nat, S dups) else (l, b, dups) in
      (l, b, c, (1 <? dups)%nat)
    else (l, b, c, protect) in
  let '(l, b) := if protect then gather n l pivot a b else (l, b) in
  (swap l pivot (b - 1), (b - 1)%nat, c).

(** The Shell pass of quickSort_func for short slices *)
Fixpoint shell (n : nat) (l : list A) (i : nat) : list A :=
  match n with
  | O => l
  | S n' => shell n' (swap_if (less l i (i - 6)) l i (i - 6)) (S i)
  end.
Definition short_sort (l : list A) (a b : nat) : list A :=
  if (1 <? b - a)%nat then insertionSort (shell (b - (a + 6)) l (a + 6)) a b else l.

(** quickSort_func; [depth] is maxDepth. *)
Fixpoint quickSort (depth : nat) (l : list A) (a b : nat) : list A :=
  if (12 <? b - a)%nat then
    match depth with
    | O => heapSort l a b
    | S d =>
        let '(l, mlo, mhi) := doPivot l a b in
        if (mlo - a <? b - mhi)%nat then quickSort d (quickSort d l a mlo) mhi b
        else quickSort d (quickSort d l mhi b) a mlo
    end
  else short_sort l a b.

(** maxDepth: twice the number of binary digits *)
Definition maxDepth (n : nat) : nat := match n with O => 0 | _ => 2 * S (Nat.log2 n) end.

(** sort.Slice *)
Definition slice (l : list A) : list A := quickSort (maxDepth (length l)) l 0 (length l).
End Sort.
