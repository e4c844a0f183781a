(** * reporting/tree.go, reporting/flattenedtree.go, reporting/filter.go *)
From Verif Require Import Base Utf8 Unicode GoTime Strconv Journal Account.

(** tree.go:9-24; [prepender] and [shouldCollapseOnlyChildren] never change and
    are arguments below. *)
Record treeContext := TC {
  c_depth : nat;
  c_isOnlyChild : bool;
  c_collapsed : str;
  c_collapsedDepth : nat;
  c_tree : str }.

(** Children sorted by name: [SortedChildNames] followed by the look-up. *)
Definition key_ltb {V} (x y : str * V) : bool := str_ltb (fst x) (fst y).
Definition sort_by_key {V} (l : list (str * V)) : list (str * V) := isort key_ltb l.

(** tree.go:44-51 *)
Definition calculateSpaces (depth : nat) : str := rep (depth * 2) 32.

Section Tree.
Variable prepender : adata -> str.
Variable collapse : bool.

(** [tree = tree + "\n" + line], or the line alone at the start. *)
Definition add_line (tree : str) (l : str) : str :=
  match tree with [] => l | _ => tree ++ [newline] ++ l end.

(** tree.go:43-109 *)
Fixpoint tree (a : account) (c : treeContext) : treeContext :=
  let 'Acc d ch := a in
  let descend (c : treeContext) : treeContext :=
    fold_left (fun c kf => snd kf c)
      (sort_by_key (map (fun kc => (fst kc, tree (snd kc))) ch)) c in
  let one := match ch with [_] => true | _ => false end in
  if c_isOnlyChild c && collapse then
    let c1 :=
      if one then
        TC (c_depth c) true (c_collapsed c ++ [colon] ++ a_name d) (c_collapsedDepth c) (c_tree c)
      else
        TC (c_depth c) false [] (c_collapsedDepth c)
           (add_line (c_tree c)
              (prepender d ++ calculateSpaces (c_collapsedDepth c) ++ c_collapsed c ++ [colon] ++ a_name d)) in
    descend c1
  else
    let c1 :=
      if one && collapse then
        TC (c_depth c) true
           (match c_collapsed c with
            | [] => calculateSpaces (c_depth c) ++ a_name d
            | cc => cc ++ [colon] ++ a_name d
            end) (c_collapsedDepth c) (c_tree c)
      else
        TC (c_depth c) false (c_collapsed c) (c_collapsedDepth c)
           (add_line (c_tree c) (prepender d ++ calculateSpaces (c_depth c) ++ a_name d)) in
    let c2 := descend (TC (S (c_depth c1)) (c_isOnlyChild c1) (c_collapsed c1)
                          (c_collapsedDepth c1) (c_tree c1)) in
    TC (pred (c_depth c2)) (c_isOnlyChild c2) (c_collapsed c2) (c_collapsedDepth c2) (c_tree c2).

(** tree.go:28-39 *)
Definition Tree (a : account) : str :=
  c_tree (fold_left (fun c kf => snd kf c)
            (sort_by_key (map (fun kc => (fst kc, tree (snd kc))) (acc_children a)))
            (TC 0 false [] 0 [])).

(** flattenedtree.go:19-36 *)
Fixpoint flattenedTree (a : account) (current : str) : str :=
  let 'Acc d ch := a in
  match ch with
  | [] => add_line current (prepender d ++ a_path d)
  | _ => fold_left (fun cur kf => snd kf cur)
           (sort_by_key (map (fun kc => (fst kc, flattenedTree (snd kc))) ch)) current
  end.

(** flattenedtree.go:12-17 *)
Definition FlattenedTree (a : account) : str := flattenedTree a [].
End Tree.

(** ** Filters *)

Inductive filterType := AccountNameFilter | PayeeFilter | NoteFilter.

(** filter.go:27-30; a compiled regular expression is its source text. *)
Record filter_ := Filter { f_regex : str; f_type : filterType }.

Section Regex.
Variable U : unicode.
(** [regexp.Compile] succeeds; [MatchString]. *)
Variable re_ok : str -> bool.
Variable re_match : str -> str -> bool.

(** filter.go:10-17 *)
Definition containsUppercase (s : str) : bool := existsb (isUpper U) (decode s).

(** filter.go:46-49 and cmd/payees.go:67-70 *)
Definition smart_case (arg : str) : str :=
  if containsUppercase arg then arg else lit "(?i)" ++ arg.

(** filter.go:32-57.  The first rune of an empty argument panics. *)
Definition newFilter (arg : str) : pres filter_ :=
  match decode arg with
  | [] => PPanic
  | r :: _ =>
      let '(ty, arg') :=
        if r =? 64 then (PayeeFilter, skipn 1 arg)
        else if r =? 61 then (NoteFilter, skipn 1 arg)
        else (AccountNameFilter, arg) in
      let src := smart_case arg' in
      if re_ok src then POk (Filter src ty) else PErr (ERegexp src)
  end.

(** filter.go:59-93.  Postings are pointers in Go, so two equal postings of a
    transaction are different map keys; they are given by their indices, in
    ascending order (the caller puts them in a map again). *)
Definition posting_matches (f : filter_) (p : posting) : bool :=
  match f_type f with
  | NoteFilter => existsb (re_match (f_regex f)) (po_comments p)
  | AccountNameFilter => re_match (f_regex f) (po_account p)
  | PayeeFilter => false
  end.
Definition matchesTransactionHow (f : filter_) (t : transaction) : bool * bool * list nat :=
  (match f_type f with PayeeFilter => re_match (f_regex f) (t_payee t) | _ => false end,
   match f_type f with
   | NoteFilter => fold_left (fun m n => m || re_match (f_regex f) n) (t_notes t)
                     (re_match (f_regex f) (t_headernote t))
   | _ => false
   end,
   map fst (filter (fun ip => posting_matches f (snd ip))
              (combine (seq 0 (length (t_postings t))) (t_postings t)))).

(** filter.go:95-125 *)
Definition matchesTransaction (f : filter_) (t : transaction) : bool :=
  match f_type f with
  | PayeeFilter => re_match (f_regex f) (t_payee t)
  | NoteFilter =>
      re_match (f_regex f) (t_headernote t)
      || existsb (re_match (f_regex f)) (t_notes t)
      || existsb (fun p => existsb (re_match (f_regex f)) (po_comments p)) (t_postings t)
  | AccountNameFilter =>
      existsb (fun p => re_match (f_regex f) (po_account p)) (t_postings t)
  end.

(** filter.go:127-129 *)
Definition matchesString (f : filter_) (s : str) : bool := re_match (f_regex f) s.
End Regex.
