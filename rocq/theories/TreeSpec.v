(** * What account trees are: specification

    Nothing here uses the look-up functions of the model. *)
From Verif Require Import Base BaseFacts GoTime Strconv Journal Account Spec.

(** [node a q d]: following the keys [q] from [a] leads to an account with data [d]. *)
Inductive node : account -> list str -> adata -> Prop :=
| NodeHere : forall d ch, node (Acc d ch) [] d
| NodeBelow : forall d ch k c q x, In (k, c) ch -> node c q x -> node (Acc d ch) (k :: q) x.

(** The same, with the whole account reached. *)
Inductive subtree : account -> list str -> account -> Prop :=
| SubHere : forall a, subtree a [] a
| SubBelow : forall d ch k c q b, In (k, c) ch -> subtree c q b -> subtree (Acc d ch) (k :: q) b.

(** A Go map holds a key at most once. *)
Inductive distinct : account -> Prop :=
| Distinct : forall d ch, NoDup (map fst ch) -> (forall k c, In (k, c) ch -> distinct c) ->
    distinct (Acc d ch).

(** Every account is stored under its own name. *)
Inductive named : account -> Prop :=
| Named : forall d ch, (forall k c, In (k, c) ch -> k = a_name (acc_data c) /\ named c) ->
    named (Acc d ch).

Definition prefix (q p : list str) : Prop := exists r, p = q ++ r.

(** The components of a posting's account. *)
Definition components (p : posting) : list str := split 58 (po_account p).

(** Components that are not one of the two reserved names. *)
Definition unreserved (c : str) : Prop := c <> lit "_root_" /\ c <> lit "_budget_root_".

(** Postings to the account reached by [q], or to an account below it. *)
Fixpoint prefixb (q p : list str) : bool :=
  match q, p with
  | [], _ => true
  | x :: q', y :: p' => str_eqb x y && prefixb q' p'
  | _ :: _, [] => false
  end.
Definition below (q : list str) (p : posting) : bool := prefixb q (components p).
Lemma list_str_dec : forall a b : list str, {a = b} + {a <> b}.
Proof. apply list_eq_dec. apply str_eq_dec. Defined.
Definition here (q : list str) (p : posting) : bool := if list_str_dec q (components p) then true else false.

(** The first commodity named, if any. *)
Definition first_commodity (ps : list posting) : str := hd [] (named_commodities ps).

(** The balance of an account. *)
Definition balance (a : account) : Z := am_quantity (a_amount (acc_data a)).

(** A map is visited in some order. *)
Definition some_order (ord : list str -> forall A, list A -> list A) : Prop :=
  forall p A (l : list A), Permutation (ord p A l) l.
