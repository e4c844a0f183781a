(** * Properties of print: C43, C62 *)
From Verif Require Import Base BaseFacts Utf8 Utf8Facts Unicode GoTime Strconv Display Journal Lexer Parser ParserFacts FlatSpec FlatFacts
  Account Reporting Cmd Spec TextSpec JournalText JournalFacts BuilderFacts WholeFacts LexedFacts PrintFacts OriginFacts
  CmdSpec StreamFacts CmdFacts Sample PropsCmd.

Lemma note_fit : forall n, note_ok n -> ~ blank n -> spelt remark n /\ ~ In 10 n.
Proof.
  intros n [(rs & V & [B|R] & E) L] N; (split; [|exact L]).
  - exfalso. apply N. rewrite E, encode_ascii; [exact B|]. eapply Forall_impl; [|exact B]. intros a ->. unfold ascii, c_space. lia.
  - exists rs. auto.
Qed.

Lemma reprintable_fit : forall U t, final_ok U t -> zero64 (total (t_postings t)) -> reprintable t -> fit U t.
Proof.
  intros U t ([D P H N] & NE & Ps) Z [A Rh Rn Rc _].
  assert (F : Forall (posting_ok U) (t_postings t)).
  { destruct Ps as [F|E]; [exact F|]. rewrite E in A. inversion_clear A as [|? ? X _]. destruct X as (c & q & X & _). discriminate. }
  split; auto.
  - destruct Rh as [E|[Np Nb]]; [now left|right]. split; [exact Np|]. now apply note_fit.
  - apply Forall_forall. intros n I. rewrite Forall_forall in N, Rn. apply note_fit; auto.
  - apply Forall_forall. intros p I. rewrite Forall_forall in F, A, Rc. destruct (F p I) as ((A1 & A2) & C & Am).
    destruct (A p I) as (c & q & E & B). split; [exact A1|]. split; [exact A2|]. split.
    + apply Forall_forall. intros n In_. specialize (Rc p I). rewrite Forall_forall in C, Rc. apply note_fit; auto.
    + exists c, q. split; [exact E|]. destruct (Am _ E) as [S1 S2]. auto.
Qed.

Lemma delivered_ok : forall U fs depth hint f t path, In (ETxn t path) (fst (trace U fs depth hint f)) ->
  final_ok U t /\ zero64 (total (t_postings t)).
Proof.
  intros U fs depth hint f t path I. destruct (trace_flat U fs depth hint f) as [E _].
  assert (I' : In (TxnEntry t) (fst (entries U fs depth hint f))) by (rewrite <- E; apply in_map_iff; exists (ETxn t path); auto).
  pose proof (entries_texts U fs depth hint f) as T. pose proof (entries_balanced U fs depth hint f) as B.
  rewrite Forall_forall in T, B. split; [exact (T _ I')|]. now destruct (B _ I').
Qed.

(** ** C62: the texts of the transactions delivered *)

(** A note is a text without line break that is blank or starts with no space. *)
Definition note_text (n : str) : Prop := spelt (fun rs => blank rs \/ remark rs) n /\ ~ In 10 n.
Theorem C62_texts : forall U fs depth hint f t path, In (ETxn t path) (fst (trace U fs depth hint f)) ->
  real_date (t_date t) /\ 0 <= d_year (t_date t) <= 9999 /\
  spelt (fun p => p = [] \/ payee_text (t_state t) p) (t_payee t) /\ ~ In 10 (t_payee t) /\
  Forall note_text (t_headernote t :: t_notes t) /\ t_postings t <> [] /\
  (t_postings t = [Posting [] [] None] \/
   Forall (fun p => spelt (account_text U) (po_account p) /\ ~ In 10 (po_account p) /\ Forall note_text (po_comments p) /\
     forall a, po_amount p = Some a -> spelt (commodity_text U) (am_commodity a) /\ ~ In 10 (am_commodity a)) (t_postings t)).
Proof.
  intros U fs depth hint f t path I. apply delivered_ok in I as [([[D Y] [P1 P2] H N] & NE & Ps) _].
  split; [exact D|]. split; [exact Y|]. split; [exact P1|]. split; [exact P2|]. split; [constructor; assumption|]. split; [exact NE|].
  destruct Ps as [F|E]; [right|left; exact E]. eapply Forall_impl; [|exact F]. intros p ((A1 & A2) & C & Am). auto.
Qed.
Definition text_odd : str :=
  lit "2021-03-01 ! B  ;;;" ++ [10] ++ lit "  éb:b c d" ++ [9] ++ lit "X 2" ++ [10] ++ lit "  y".
Example C62_example : exists t, In (ETxn t (lit "j")) (fst (trace U0 no_files 1 (lit "j") (File text_odd false))) /\
  t_headernote t = lit ";;" /\ map po_account (t_postings t) = [lit "éb:b c d"; lit "y"].
Proof. eexists. split; [vm_compute; left; reflexivity|]. split; reflexivity. Qed.

(** ** C43 *)

(** Transactions delivered from any journals, printed one after the other, are read
    back as they were, with every amount written out.  Missing: those outside
    [reprintable]; see below for what becomes of them. *)
Theorem C43_reads_back_partial : forall U fs depth hint ts,
  Forall (fun t => exists fs0 depth0 hint0 f0 path, In (ETxn t path) (fst (trace U fs0 depth0 hint0 f0))) ts ->
  Forall reprintable ts ->
  trace U fs depth hint (File (concat (lines (map transaction_string ts))) false) =
    (map (fun t => ETxn (written_out t) hint) ts, SOk).
Proof.
  intros U fs depth hint ts D R.
  assert (F : Forall (fit U) ts).
  { apply Forall_forall. intros t I. rewrite Forall_forall in D, R. destruct (D t I) as (fs0 & d0 & h0 & f0 & p & J).
    apply delivered_ok in J as [J1 J2]. apply reprintable_fit; auto. }
  assert (S : Forall (fun t => short_lines (transaction_string t)) ts) by (eapply Forall_impl; [|exact R]; intros t X; apply X).
  destruct (printed_written U ts F S) as (ls & E & W & L).
  assert (E' : concat (lines (map transaction_string ts)) = text_of ls) by (rewrite <- E; unfold lines, printed; now rewrite map_map).
  rewrite E', (written_read U fs depth hint ls (map written_out ts) W L), map_map; [reflexivity|].
  apply Forall_forall. intros t I. apply in_map_iff in I as (t0 & <- & I). rewrite Forall_forall in F. now apply (fit_complete U), F.
Qed.

(** The same for the command. *)
Theorem C43_print_partial : forall E O fs, sane_clock E -> orders E -> sorts E -> filters_for E (o_args O) fs -> CmdSpec.readable E O ->
  exists sel ts out, picks E O fs (txns 0 (fst (stream E O))) sel /\ Permutation ts (selected sel) /\
    print_cmd E O = Outcome out SOk /\
    (Forall reprintable ts -> forall fs' depth hint,
      trace (e_unicode E) fs' depth hint (File (concat out) false) = (map (fun t => ETxn (written_out t) hint) ts, SOk)).
Proof.
  intros E O fs C Or So F R. destruct (C42_print E O fs C Or So F) as [K _]. destruct (K R) as (sel & ts & P & Pm & _ & Pr).
  exists sel, ts, (lines (map transaction_string ts)). split; [exact P|]. split; [exact Pm|]. split; [exact Pr|].
  intros Re fs' depth hint. apply C43_reads_back_partial; [|exact Re]. apply Forall_forall. intros t I.
  apply (Permutation_in _ Pm) in I. apply in_map_iff in I as ([u ps] & <- & I). apply (picks_in _ _ _ _ _ _ _ P) in I as (I & _).
  apply txns_in in I. unfold stream in I. destruct (journal_path E O) as [path|]; [|destruct I]. destruct (e_fs E path) as [f|] eqn:Ef; [|destruct I].
  cbn [fst u_txn] in *. exists (e_fs E), (e_depth E), path, f. eexists. exact I.
Qed.

(** Deciding [reprintable]. *)
Definition blankb (s : str) : bool := forallb (fun r => r =? 32) s.
Lemma blankb_iff : forall s, blankb s = true <-> blank s.
Proof. intro s. unfold blankb, blank. rewrite forallb_forall, Forall_forall. split; intros H x I; specialize (H x I); [now apply Z.eqb_eq|now apply Z.eqb_eq in H || (subst; reflexivity)]. Qed.
Definition reprintableb (t : transaction) : bool :=
  forallb (fun p => match po_amount p with Some a => Z.abs (am_quantity a) <=? 100 * 2 ^ 46 | None => false end) (t_postings t) &&
  (is_nil (t_headernote t) || (negb (is_nil (t_payee t)) && negb (blankb (t_headernote t)))) &&
  forallb (fun n => negb (blankb n)) (t_notes t) &&
  forallb (fun p => forallb (fun n => negb (blankb n)) (po_comments p)) (t_postings t) &&
  forallb (fun l => (Z.of_nat (length l) <? 4096) && negb (last l 0 =? 13)) (split 10 (transaction_string t)).
Lemma reprintableb_ok : forall t, reprintableb t = true -> reprintable t.
Proof.
  intros t H. unfold reprintableb in H. repeat rewrite andb_true_iff in H. destruct H as ((((A & B) & C) & D) & E).
  assert (NB : forall s, negb (blankb s) = true -> ~ blank s) by (intros s K X; apply blankb_iff in X; rewrite X in K; discriminate).
  rewrite forallb_forall in A, C, D, E. split.
  - apply Forall_forall. intros p I. specialize (A p I). destruct (po_amount p) as [[c q]|]; [|discriminate]. exists c, q. split; [reflexivity|]. now apply Z.leb_le in A.
  - apply orb_true_iff in B as [B|B]; [left; now destruct (t_headernote t)|right]. apply andb_true_iff in B as [B1 B2].
    split; [now destruct (t_payee t)|auto].
  - apply Forall_forall. auto.
  - apply Forall_forall. intros p I. specialize (D p I). rewrite forallb_forall in D. apply Forall_forall. auto.
  - apply Forall_forall. intros l I. specialize (E l I). apply andb_true_iff in E as [E1 E2]. split; [now apply Z.ltb_lt|].
    apply negb_true_iff, Z.eqb_neq in E2. exact E2.
Qed.

Lemma all_reprintable : forall ts, forallb reprintableb ts = true -> Forall reprintable ts.
Proof. intros ts H. rewrite forallb_forall in H. apply Forall_forall. intros t I. now apply reprintableb_ok, H. Qed.

Definition text_full : str :=
  lit "2021/03/03 * Café #1  ;  monthly" ++ [10] ++ lit "  ; first note" ++ [10] ++
  lit "    assets:cash    $ 3.5" ++ [10] ++ lit "  # why" ++ [10] ++ lit "    z" ++ [10; 10] ++
  lit "2021.03.01 A" ++ [10] ++ lit "    x    $1" ++ [10] ++ lit "    y    $-1" ++ [10].
Definition txns_of (text : str) : list transaction :=
  flat_map (fun ev => match ev with ETxn t _ => [t] | EPer _ _ => [] end) (fst (trace U0 no_files 1 (lit "j") (File text false))).
Lemma txns_of_delivered : forall text t, In t (txns_of text) -> exists fs0 depth0 hint0 f0 path, In (ETxn t path) (fst (trace U0 fs0 depth0 hint0 f0)).
Proof.
  intros text t I. exists no_files, 1%nat, (lit "j"), (File text false). unfold txns_of in I. revert I.
  generalize (fst (trace U0 no_files 1 (lit "j") (File text false))). intros evs I.
  apply in_flat_map in I as ([t0 p|pt p] & I & K); [|destruct K]. destruct K as [->|[]]. exists p. exact I.
Qed.
Example C43_example : length (txns_of text_full) = 2%nat /\
  Forall (fun t => exists fs0 depth0 hint0 f0 path, In (ETxn t path) (fst (trace U0 fs0 depth0 hint0 f0))) (txns_of text_full) /\
  Forall reprintable (txns_of text_full).
Proof.
  split; [vm_compute; reflexivity|]. split.
  - apply Forall_forall. intros t. apply txns_of_delivered.
  - apply all_reprintable. vm_compute. reflexivity.
Qed.

(** Four journals of one transaction each that do not come back: a note without a
    payee, an empty comment, an amount beyond what displays exactly, and a posting
    without amount where the others add up to zero. *)
Definition lossy : list str :=
  [lit "2021-03-01 ;note" ++ [10] ++ lit "    x    $1" ++ [10] ++ lit "    y    $-1" ++ [10];
   lit "2021-03-01 A" ++ [10] ++ lit "  ;" ++ [10] ++ lit "    x    $1" ++ [10] ++ lit "    y    $-1" ++ [10];
   lit "2021-03-01 A" ++ [10] ++ lit "    x    $90071992547409.93" ++ [10] ++ lit "    y" ++ [10];
   lit "2021-03-01 A" ++ [10] ++ lit "    x    $1" ++ [10] ++ lit "    y    $-1" ++ [10] ++ lit "    z" ++ [10]].
Theorem C43_reads_back_refuted : forall j, In j lossy -> exists t,
  trace U0 no_files 1 (lit "j") (File j false) = ([ETxn t (lit "j")], SOk) /\
  fst (trace U0 no_files 1 (lit "k") (File (transaction_string t ++ [10]) false)) <> [ETxn (written_out t) (lit "k")].
Proof.
  intros j [<-|[<-|[<-|[<-|[]]]]].
  all: match goal with |- exists t, trace ?u ?n ?d ?h (File ?j ?b) = _ /\ _ => let t := eval vm_compute in (hd newTransaction (txns_of j)) in exists t end.
  all: split; [vm_compute; reflexivity|vm_compute; discriminate].
Qed.
