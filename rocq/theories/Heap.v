(** * PathComponents: journal/account.go:12-33, 90-139 with Go's slices

    The field [PathComponents] is made with [append], which writes into the
    array of the slice it is given when that array has room.  Here accounts are
    modelled once more, with this field only and with the arrays of the slices.

    [grow c] is the capacity [append] chooses for an array that has to hold more
    than [c] strings (runtime.growslice; it is never less than what is needed). *)
From Verif Require Import Base Utf8 GoTime Strconv Journal Account.

(** The arrays; the length of an array is its capacity. *)
Definition heap := list (list str).

(** A slice starting at the first place of array [sl_array]. *)
Record slice := Slice { sl_array : nat; sl_len : nat }.

Inductive hacc := HAcc (name : str) (pc : slice) (ch : list (str * hacc)).
Definition h_name (a : hacc) : str := match a with HAcc n _ _ => n end.
Definition h_pc (a : hacc) : slice := match a with HAcc _ s _ => s end.
Definition h_children (a : hacc) : list (str * hacc) := match a with HAcc _ _ ch => ch end.

(** The strings a slice shows. *)
Definition strings (h : heap) (s : slice) : list str := firstn (sl_len s) (nth (sl_array s) h []).

(** A new array. *)
Definition alloc (h : heap) (arr : list str) (len : nat) : heap * slice :=
  (h ++ [arr], Slice (length h) len).

Definition set_place (arr : list str) (n : nat) (x : str) : list str :=
  firstn n arr ++ x :: skipn (S n) arr.
Fixpoint set_array (h : heap) (n : nat) (arr : list str) : heap :=
  match h, n with
  | [], _ => []
  | _ :: h', O => arr :: h'
  | a :: h', S n' => a :: set_array h' n' arr
  end.

Section Grow.
  Variable grow : nat -> nat.

  (** The built-in [append] with one string. *)
  Definition append (h : heap) (s : slice) (x : str) : heap * slice :=
    let arr := nth (sl_array s) h [] in
    if Nat.ltb (sl_len s) (length arr) then
      (set_array h (sl_array s) (set_place arr (sl_len s) x), Slice (sl_array s) (S (sl_len s)))
    else
      alloc h (firstn (sl_len s) arr ++ x :: repeat [] (grow (length arr) - S (sl_len s))) (S (sl_len s)).

  (** account.go:90-110, below a parent called [pname] with components [ppc] *)
  Fixpoint h_newAccountWithChildren (h : heap) (pname : str) (ppc : slice) (c : str) (rest : list str)
    : heap * hacc :=
    let '(h1, pc) := if is_root_name pname then alloc h [c] 1 else append h ppc c in
    match rest with
    | [] => (h1, HAcc c pc [])
    | c' :: rest' =>
        let '(h2, child) := h_newAccountWithChildren h1 c pc c' rest' in
        (h2, HAcc c pc [(c', child)])
    end.

  (** account.go:114-139: descend as long as there is a child, then create.
      [None]: no components, the program panics. *)
  Fixpoint h_findOrCreate (h : heap) (a : hacc) (comps : list str) : option (heap * hacc) :=
    let 'HAcc n pc ch := a in
    match comps with
    | [] => None
    | c :: rest =>
        match get c ch with
        | Some child =>
            match rest with
            | [] => Some (h, a)
            | _ => match h_findOrCreate h child rest with
                   | Some (h', child') => Some (h', HAcc n pc (put c child' ch))
                   | None => None
                   end
            end
        | None =>
            let '(h', child) := h_newAccountWithChildren h n pc c rest in
            Some (h', HAcc n pc (put c child ch))
        end
    end.

  Fixpoint h_findOrCreates (h : heap) (a : hacc) (l : list (list str)) : option (heap * hacc) :=
    match l with
    | [] => Some (h, a)
    | comps :: l' => match h_findOrCreate h a comps with
                     | Some (h', a') => h_findOrCreates h' a' l'
                     | None => None
                     end
    end.
End Grow.

(** account.go:23-33: an account on its own; [make([]string, 0, 5)] *)
Definition h_new (name : str) : heap * hacc :=
  ([repeat [] 5], HAcc name (Slice 0 0) []).
