(** * What the account reports show: specification *)
From Verif Require Import Base Utf8 GoTime Strconv Journal Account Spec TreeSpec.

(** Depth-first order of key paths: a parent before what is below it, siblings
    in byte order. *)
Inductive path_lt : list str -> list str -> Prop :=
| ParentFirst : forall k q, path_lt [] (k :: q)
| EarlierKey : forall k k' q q', str_ltb k k' = true -> path_lt (k :: q) (k' :: q')
| SameKey : forall k q q', path_lt q q' -> path_lt (k :: q) (k :: q').

(** The rows of a report: accounts with their key paths, in depth-first order. *)
Definition in_order (rows : list (list str * adata)) : Prop := StronglySorted path_lt (map fst rows).

(** A text in a column of so many characters, at its right or left end. *)
Definition flush_right (n : nat) (s : str) : str := repeat 32 (n - length (decode s)) ++ s.
Definition flush_left (n : nat) (s : str) : str := s ++ repeat 32 (n - length (decode s)).

(** Lines separated by line feeds. *)
Definition unlines (ls : list str) : str := join [10] ls.

(** A line of the tree report. *)
Definition tree_line (pre : adata -> str) (row : list str * adata) : str :=
  pre (snd row) ++ rep (2 * (length (fst row) - 1)) 32 ++ a_name (snd row).
(** A line of the flat report. *)
Definition flat_line (pre : adata -> str) (row : list str * adata) : str :=
  pre (snd row) ++ a_path (snd row).

(** The account with a chain of only children merged into it: the names joined
    by ':', the balance and the children those of the last one; and the same
    below. *)
Fixpoint merged (a : account) : account :=
  let 'Acc d ch := a in
  let ms := map (fun kc => (fst kc, merged (snd kc))) ch in
  match ms with
  | [(_, Acc d' ch')] => Acc (AD (a_name d ++ [58] ++ a_name d') (a_path d') (a_amount d') (a_postings d')) ch'
  | _ => Acc d ms
  end.
Definition merged_below (a : account) : account :=
  Acc (acc_data a) (map (fun kc => (fst kc, merged (snd kc))) (acc_children a)).

(** ** What balance prints for the postings [ps] *)

(** The part of a path after the last reserved name in it (the last component
    does not count). *)
Definition reservedb (c : str) : bool := str_eqb c (lit "_root_") || str_eqb c (lit "_budget_root_").
Fixpoint visible (q : list str) : list str :=
  match q with
  | [] => []
  | _ :: q' => if existsb reservedb (removelast q) then visible q' else q
  end.

(** The account [q] after [ps]. *)
Record holds (ps : list posting) (q : list str) (d : adata) : Prop := {
  h_quantity : am_quantity (a_amount d) = wrap64 (total (filter (below q) ps));
  h_commodity : am_commodity (a_amount d) = first_commodity (filter (below q) ps);
  h_postings : a_postings d = filter (here q) ps;
  h_name : a_name d = last q (lit "_root_");
  h_path : a_path d = join [58] (visible q) }.

(** The account [q] is shown: something was posted to it or below, and neither it
    nor an account above is hidden for being zero. *)
Definition shown (zero : bool) (ps : list posting) (q : list str) : Prop :=
  (exists p, In p ps /\ prefix q (components p)) /\
  (zero = true \/ forall r, r <> [] -> prefix r q ->
     wrap64 (total (filter (below r) ps)) <> 0 \/ last r [] = lit "_root_").

(** A path and those it starts with, longest first. *)
Fixpoint up (q : list str) : list (list str) :=
  match q with
  | [] => [[]]
  | k :: q' => map (cons k) (up q') ++ [[]]
  end.

(** What is printed when [p] is posted after [before]: a line for each account
    from that of [p] up to the root that has another commodity. *)
Definition complaint (before : list posting) (p : posting) (q : list str) : list str :=
  let c := first_commodity (filter (below q) (before ++ [p])) in
  if str_eqb c (commodity_of p) then []
  else [lit "unhandled addition of unmatched commodities: '" ++ c ++ lit "' and '" ++ commodity_of p ++ lit "'" ++ [10]].
Fixpoint complaints (before ps : list posting) : list str :=
  match ps with
  | [] => []
  | p :: ps' => flat_map (complaint before p) (up (components p)) ++ complaints (before ++ [p]) ps'
  end.

(** ** The collapsed report *)

(** [alone sh q]: among the accounts shown, exactly one stands right below [q]. *)
Definition alone (sh : list str -> Prop) (q : list str) : Prop := exists k, forall k', sh (q ++ [k']) <-> k' = k.

(** [folded one q n names]: when every account of which [one] holds shares the
    line of the account below it, the line of the account [q] is indented [n]
    times and carries the names [names]. *)
Inductive folded (one : list str -> Prop) : list str -> nat -> list str -> Prop :=
| FoldTop : forall k, folded one [k] 0 [k]
| FoldOn : forall q k n names, folded one q n names -> one q -> folded one (q ++ [k]) n (names ++ [k])
| FoldNew : forall q k n names, folded one q n names -> ~ one q -> folded one (q ++ [k]) (S n) [k].
