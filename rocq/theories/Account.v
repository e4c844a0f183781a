(** * The account tree: journal/account.go and journal/journal.go

    An account is a node with its data and its children; the [Children] map is
    an association list.  A pointer to an account in the tree of a root is the
    list of keys leading to it; [Parent] pointers are that list read backwards.
    [PathComponents] is left out here (no command reads it; its aliasing is
    modelled in Heap.v); [Transactions] is left out (nothing reads it). *)
From Verif Require Import Base Utf8 GoTime Strconv Journal.

Record adata := AD {
  a_name : str;
  a_path : str;
  a_amount : amount;
  a_postings : list posting }.

Inductive account := Acc (d : adata) (ch : list (str * account)).

Definition acc_data (a : account) : adata := match a with Acc d _ => d end.
Definition acc_children (a : account) : list (str * account) := match a with Acc _ ch => ch end.
Definition acc_name (a : account) : str := a_name (acc_data a).

(** account.go:23-33 *)
Definition newAccount (name : str) : account := Acc (AD name [] (Amount [] 0) []) [].

(** Association-list operations at string keys. *)
Definition get {V} (k : str) (l : list (str * V)) : option V := assoc str_eqb k l.
Definition put {V} (k : str) (v : V) (l : list (str * V)) : list (str * V) := assoc_set str_eqb k v l.
Definition del {V} (k : str) (l : list (str * V)) : list (str * V) := assoc_del str_eqb k l.

Definition is_root_name (n : str) : bool := str_eqb n RootID || str_eqb n BudgetRootID.

(** account.go:56-66; [anc] are the names of the ancestors, parent first. *)
Fixpoint createPath_loop (path : str) (anc : list str) : str :=
  match anc with
  | [] => path
  | p :: anc' => if is_root_name p then path else createPath_loop (p ++ [colon] ++ path) anc'
  end.
Definition createPath (name : str) (anc : list str) : str := createPath_loop name anc.

(** account.go:80-88: [action] on the account at [path], then on each of its
    ancestors up to the root; the texts printed are collected in that order.
    [None]: there is no account at [path]. *)
Fixpoint walkAncestors (path : list str) (action : adata -> adata * list str) (a : account)
  : option (account * list str) :=
  let 'Acc d ch := a in
  match path with
  | [] => let '(d', out) := action d in Some (Acc d' ch, out)
  | k :: path' =>
      match get k ch with
      | None => None
      | Some c =>
          match walkAncestors path' action c with
          | None => None
          | Some (c', out) =>
              let '(d', out') := action d in
              Some (Acc d' (put k c' ch), out ++ out')
          end
      end
  end.

(** Apply [f] to the account at [path]. *)
Fixpoint update_at (path : list str) (f : account -> account) (a : account) : account :=
  match path with
  | [] => f a
  | k :: path' =>
      let 'Acc d ch := a in
      match get k ch with
      | None => a
      | Some c => Acc d (put k (update_at path' f c) ch)
      end
  end.

(** The account at [path], and the names from it up to the root. *)
Fixpoint find_at (path : list str) (a : account) : option account :=
  match path with
  | [] => Some a
  | k :: path' => match get k (acc_children a) with
                  | None => None
                  | Some c => find_at path' c
                  end
  end.
Fixpoint names_up (path : list str) (a : account) (anc : list str) : list str :=
  match path with
  | [] => acc_name a :: anc
  | k :: path' => match get k (acc_children a) with
                  | None => acc_name a :: anc
                  | Some c => names_up path' c (acc_name a :: anc)
                  end
  end.

(** account.go:90-110.  The accounts created below a parent whose names (its
    own first, then its ancestors') are [anc]; with no components left the last
    account created is returned. *)
Fixpoint newAccountWithChildren (anc : list str) (c : str) (rest : list str) : account :=
  Acc (AD c (createPath c anc) (Amount [] 0) [])
      (match rest with
       | [] => []
       | c' :: rest' => [(c', newAccountWithChildren (c :: anc) c' rest')]
       end).

(** account.go:128-139: keys of the deepest account found, components left.
    [components[0]] of an empty slice panics ([None]). *)
Fixpoint findChild (a : account) (comps : list str) : option (list str * list str) :=
  match comps with
  | [] => None
  | c :: rest =>
      match get c (acc_children a) with
      | Some child =>
          match rest with
          | [] => Some ([c], [])
          | _ => match findChild child rest with
                 | Some (p, r) => Some (c :: p, r)
                 | None => None
                 end
          end
      | None => Some ([], comps)
      end
  end.

(** account.go:114-125, called on an account without parent.  The account
    returned is the one at [comps]. *)
Definition findOrCreateAccount (a : account) (comps : list str) : option account :=
  match findChild a comps with
  | None => None
  | Some (_, []) => Some a
  | Some (p, c :: rest) =>
      Some (update_at p
              (fun q => let 'Acc d ch := q in
                 Acc d (put c (newAccountWithChildren (names_up p a []) c rest) ch)) a)
  end.

(** account.go:142-149 *)
Definition sortedChildNames (a : account) : list str := sort_strings (map fst (acc_children a)).

(** account.go:152-162 *)
Fixpoint pruneChildren (target current : Z) (a : account) : account :=
  let 'Acc d ch := a in
  if current =? target then Acc d []
  else Acc d (map (fun kc => (fst kc, pruneChildren target (current + 1) (snd kc))) ch).

(** account.go:173-190: the accounts (as key paths) satisfying the matcher, in
    the order of the walk; [ord p] is the order in which the range loop at the
    account at [p] visits the children. *)
Section Find.
Variable ord : list str -> forall A, list A -> list A.
Variable matcher : account -> bool.
Fixpoint findAccounts (p : list str) (a : account) : list (list str) :=
  (if matcher a then [p] else []) ++
  concat (ord p _ (map (fun kc => findAccounts (p ++ [fst kc]) (snd kc)) (acc_children a))).
End Find.

(** account.go:165-170 *)
Definition leaves (ord : list str -> forall A, list A -> list A) (a : account) : list (list str) :=
  findAccounts ord (fun x => match acc_children x with [] => true | _ => false end) [] a.

(** account.go:206-211 on the account at [path] below the root *)
Fixpoint unlink_at (path : list str) (a : account) : account :=
  match path with
  | [] => a
  | k :: path' =>
      let 'Acc d ch := a in
      match path' with
      | [] => Acc d (del k ch)
      | _ => match get k ch with
             | None => a
             | Some c => Acc d (put k (unlink_at path' c) ch)
             end
      end
  end.

(** account.go:192-203 *)
Definition last_key (root : account) (p : list str) : str :=
  match p with [] => acc_name root | _ => last p [] end.
Definition removeEmptyChildren (ord : list str -> forall A, list A -> list A) (a : account) : account :=
  let matching := findAccounts ord (fun x => am_quantity (a_amount (acc_data x)) =? 0) [] a in
  fold_left (fun t p => if str_eqb (last_key a p) RootID then t else unlink_at p t) matching a.

(** account.go:214-235: the account afterwards and whether it or a descendant matched *)
Fixpoint removeChildren (matcher : account -> bool) (a : account) : account * bool :=
  let 'Acc d ch := a in
  let rs := map (fun kc => (fst kc, removeChildren matcher (snd kc))) ch in
  (Acc d (map (fun r => (fst r, fst (snd r))) (filter (fun r => snd (snd r)) rs)),
   fold_left (fun m r => m || snd (snd r)) rs (matcher a)).

(** account.go:35-53; [ord] as above. *)
Section AsString.
Variable ord : list str -> forall A, list A -> list A.
Fixpoint asString (p : list str) (level : nat) (a : account) : str :=
  let s := rep (level * Z.to_nat TabWidth) 32 ++ acc_name a in
  fold_left (fun s t => s ++ [newline] ++ t)
    (ord p _ (map (fun kc => asString (p ++ [fst kc]) (Datatypes.S level) (snd kc)) (acc_children a))) s.
End AsString.

(** ** journal/journal.go *)

(** journal.go:18-35.  [periodicTransactions] and [filePaths] are kept as lists. *)
Record journal := Jrn {
  j_txns : list transaction;
  j_ptxns : list ptransaction;
  j_paths : list str;
  j_root : account }.
Definition newJournal : journal := Jrn [] [] [] (newAccount RootID).

(** journal.go:38-41 *)
Definition j_addTransaction (j : journal) (t : transaction) (loc : str) : journal :=
  Jrn (j_txns j ++ [t]) (j_ptxns j) (j_paths j ++ [loc]) (j_root j).

(** The closure of journal.go:90-99. *)
Definition wire_add (am : amount) (d : adata) : adata * list str :=
  let com := match am_commodity (a_amount d) with
             | [] => am_commodity am
             | c => c
             end in
  let '(a', out) := amount_add (Amount com (am_quantity (a_amount d))) am in
  (AD (a_name d) (a_path d) a' (a_postings d), out).

Definition add_posting_to (p : posting) (a : account) : account :=
  let 'Acc d ch := a in
  Acc (AD (a_name d) (a_path d) (a_amount d) (a_postings d ++ [p])) ch.

(** journal.go:77-105.  [None]: nil dereference of a missing amount (the
    components are never empty). *)
Definition wireUpPosting (root : account) (p : posting) : option (account * list str) :=
  let comps := split colon (po_account p) in
  match findOrCreateAccount root comps with
  | None => None
  | Some r1 =>
      let r2 := update_at comps (add_posting_to p) r1 in
      match po_amount p with
      | None => None
      | Some am => walkAncestors comps (wire_add am) r2
      end
  end.

(** journal.go:70-75 *)
Definition j_addPosting (j : journal) (p : posting) : option (journal * list str) :=
  match wireUpPosting (j_root j) p with
  | None => None
  | Some (r, out) => Some (Jrn (j_txns j) (j_ptxns j) (j_paths j) r, out)
  end.

(** A list of postings, added in order; what was printed before a panic is kept. *)
Fixpoint j_addPostings (j : journal) (ps : list posting) : journal * list str * status :=
  match ps with
  | [] => (j, [], SOk)
  | p :: ps' =>
      match j_addPosting j p with
      | None => (j, [], SPanic)
      | Some (j1, out) =>
          let '(j2, out2, r) := j_addPostings j1 ps' in (j2, out ++ out2, r)
      end
  end.

(** journal.go:44-67 *)
Fixpoint j_addRun (j : journal) (ts : list transaction) (loc : str) : journal * list str * status :=
  match ts with
  | [] => (j, [], SOk)
  | t :: ts' =>
      let '(j1, out, r) := j_addPostings (j_addTransaction j t loc) (t_postings t) in
      match r with
      | SOk => let '(j2, out2, r2) := j_addRun j1 ts' loc in (j2, out ++ out2, r2)
      | _ => (j1, out, r)
      end
  end.
Definition j_addPeriodicTransaction (j : journal) (pt : ptransaction) (loc : str)
  : journal * list str * status :=
  let j1 := Jrn (j_txns j) (j_ptxns j ++ [pt]) (j_paths j) (j_root j) in
  if is_pnone (pe_interval (pt_period pt)) then (j1, [], SOk)
  else let '(ts, out) := pt_run pt in
       let '(j2, out2, r) := j_addRun j1 ts loc in (j2, out ++ out2, r).
