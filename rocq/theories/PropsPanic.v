(** * Properties: crashes, ignored lines, notes, text, one stream for all *)
From Verif Require Import Base BaseFacts Utf8 Utf8Facts Unicode GoTime Strconv Journal Lexer LexSpec
  LexerFacts JournalText LexText Parser ParserFacts FlatSpec FlatFacts Spec JournalFacts IncludeFacts
  TextSpec ReadFacts WriteFacts BodyFacts InputFacts WholeFacts PanicSpec PanicFacts KeptFacts Sample PropsParser PropsInput.

(** ** C52: no journal text crashes the program *)

(** False: for instance a comment under the header of a budget entry. *)
Theorem C52_no_crash_refuted : exists text, snd (trace U0 no_files 5 (lit "j") (File text false)) = SPanic.
Proof. exists (lit "~ 2020-01
  ; a note
"). vm_compute. reflexivity. Qed.

Lemma expand_no_panic : forall U fs depth hint f, ~ In (FStop SPanic) (expand U fs depth hint f).
Proof.
  intros U fs. assert (forall inc hint bad ls, (forall p, ~ In (FStop SPanic) (inc p)) -> ~ In (FStop SPanic) (expand_lines U inc hint bad ls)) as K.
  { intros inc hint bad ls H. induction ls as [|[l|] ls IH]; cbn [expand_lines].
    - destruct bad; intros [X|[]]; discriminate.
    - destruct (included U hint l); [|intros [X|X]; [discriminate|auto]]. intro X. apply in_app_iff in X as [X|X]; [exact (H _ X)|auto].
    - intros [X|[]]; discriminate. }
  induction depth as [|d IH]; intros hint f; cbn [expand]; apply K; intro p.
  - intros [X|[]]; discriminate.
  - destruct (fs p); [apply IH|intros [X|[]]; discriminate].
Qed.

Lemma strip_panic : forall r, strip_st r = SPanic <-> r = SPanic.
Proof. intros []; cbn; split; congruence. Qed.

(** Reading crashes exactly at a line with a header date of fewer than five
    characters, a posting line with an empty amount, an indented posting or
    comment with nothing open, or a comment directly under a '~' header. *)
Theorem C52_crashing_lines_partial : forall U fs depth hint f,
  snd (trace U fs depth hint f) = SPanic <->
  exists before l after, expand U fs depth hint f = before ++ FLine l :: after /\
    snd (flat U before newBuilder) = SOk /\ crashes U before l.
Proof.
  intros U fs depth hint f. destruct (trace_flat U fs depth hint f) as [_ TS].
  rewrite <- strip_panic, TS, strip_panic. unfold entries.
  pose proof (flat_crash U (expand U fs depth hint f) [] newBuilder []) as X. cbn [app] in X.
  assert (snd (let '(_, es, r) := flat U (expand U fs depth hint f) newBuilder in (es, r)) = snd (flat U (expand U fs depth hint f) newBuilder)) as ->
    by now destruct (flat U (expand U fs depth hint f) newBuilder) as [[? ?] ?].
  rewrite X; try reflexivity.
  - split; intros (ls1 & l & ls2 & E & O & R); exists ls1, l, ls2; (split; [exact E|]); (split; [exact O|]).
    + apply R.
    + split; [|exact R]. intros r I. pose proof (expand_stops U fs depth hint f) as SF. rewrite E in SF. apply Forall_app in SF as [SF _].
      destruct (flat U ls1 newBuilder) as [[b es] r'] eqn:FL. cbn in O. subst r'.
      exact (flat_ok_no_stop _ _ _ _ _ SF FL r I).
  - apply expand_plain.
  - intros r [].
  - apply expand_stops.
  - apply expand_no_panic.
Qed.

(** Whatever the handlers do: a crash is the reader's or a handler's. *)
Theorem C52_handlers_partial : forall S U fs (th : option (S -> transaction -> str -> S * status)) ph depth hint f s,
  (forall s' ev, snd (deliver th ph s' ev) <> SPanic) ->
  snd (parse U fs th ph depth hint f s) = SPanic -> snd (trace U fs depth hint f) = SPanic.
Proof.
  intros S U fs th ph depth hint f s H P. pose proof (parse_fold U fs th ph depth hint f s) as F.
  destruct (trace U fs depth hint f) as [evs r].
  assert (forall evs s0, snd (deliver_all th ph s0 evs) <> SPanic) as D.
  { clear -H. induction evs as [|ev evs IH]; intros s0; cbn; [discriminate|]. specialize (H s0 ev). destruct (deliver th ph s0 ev) as [s' []]; cbn in *; auto. }
  specialize (D evs s). destruct (deliver_all th ph s evs) as [s' r'] eqn:DA. cbn [snd] in *. destruct F as [_ F].
  rewrite P in F. destruct r'; cbn in F; congruence.
Qed.

(** The four kinds happen. *)
Definition panics_on (text : String.string) : Prop := snd (trace U0 no_files 5 (lit "j") (File (lit text) false)) = SPanic.
Example C52_example_short_date : panics_on "1/2 Shop". Proof. vm_compute. reflexivity. Qed.
Example C52_example_empty_amount : panics_on "2020-01-02 Shop
  A    $
". Proof. vm_compute. reflexivity. Qed.
Example C52_example_stray_posting : panics_on "2020-01-02 Shop
  A    $1
  B

  C    $2
". Proof. vm_compute. reflexivity. Qed.
Example C52_example_stray_comment : panics_on "  ; hello". Proof. vm_compute. reflexivity. Qed.
(** A stray posting before any header is an error only. *)
Example C52_example_first : snd (trace U0 no_files 5 (lit "j") (File (lit "  A    $1
") false)) = SErr (EErrorAt (EAt (lit "j") 1 EExpectedAccount)).
Proof. vm_compute. reflexivity. Qed.

(** ** C53: no posting line is silently ignored *)

(** False: a line whose first character is not a letter is. *)
Theorem C53_ignored_refuted : exists t,
  trace U0 no_files 5 (lit "j") (File (lit
"2020-01-02 Shop
  A    $1
  B    $-1
  (C)    $7
") false) = ([ETxn t (lit "j")], SOk) /\ map po_account (t_postings t) = [lit "A"; lit "B"].
Proof.
  exists (Txn (Date 2020 1 2) NoState (lit "Shop") [Posting [] (lit "A") (cents "$" 100); Posting [] (lit "B") (cents "$" (-100))] None [] []).
  split; vm_compute; reflexivity.
Qed.

(** An indented line whose first character is a letter. *)
Definition indented_letter (U : unicode) (l : str) : Prop :=
  exists ws r rest, decode l = ws ++ r :: rest /\ Forall (fun c => isSpace c = true) ws /\ isSpace r = false /\ isLetter U r = true /\
    (hd 0 ws = c_tab \/ exists ws', ws = c_space :: c_space :: ws').

(** Such a line is always taken as a posting; in a successful parse each with an
    amount is delivered, in order, with the account and amount it states. *)
Theorem C53_letter_lines_partial : forall U fs depth hint f,
  snd (trace U fs depth hint f) = SOk ->
  (forall l, In (FLine l) (expand U fs depth hint f) -> indented_letter U l ->
     (exists a, lexLine U [] l = ([(accountItem, a)], None)) \/
     (exists p, line_posting U l = [p] /\
        In p (flat_map given (flat_map entry_postings (map erase (fst (trace U fs depth hint f))))))) /\
  subseq (flat_map (fline_posting U) (expand U fs depth hint f))
    (flat_map given (flat_map entry_postings (map erase (fst (trace U fs depth hint f))))).
Proof.
  intros U fs depth hint f OK. destruct (trace_flat U fs depth hint f) as [TF TS]. rewrite OK in TS. symmetry in TS. apply strip_ok in TS.
  rewrite TF. unfold entries in *.
  destruct (flat U (expand U fs depth hint f) newBuilder) as [[b es] r] eqn:FL. cbn [fst snd] in *. subst r.
  assert (subseq (flat_map (fline_posting U) (expand U fs depth hint f)) (flat_map given (flat_map entry_postings es))) as SUB.
  { pose proof (flat_held U (expand U fs depth hint f) Fresh newBuilder b es) as X. cbn [app] in X.
    rewrite (nothing_held U fs depth hint f b es FL), app_nil_r in X. apply X; try reflexivity; [apply expand_plain|apply expand_stops|exact FL]. }
  split; [|exact SUB].
  intros l I (ws & r & rest & D & WS & NS & LR & ST).
  assert (exists a am, lexLine U [] l = (posting_items a am, None)) as (a & am & L).
  { rewrite lexLine_spec, D. 
    assert (exists ws0 w1, ws = ws0 :: w1 /\ (ws0 = c_tab \/ (ws0 = c_space /\ hd 0 (w1 ++ r :: rest) = c_space)) /\ Forall (fun c => isSpace c = true) w1) as (ws0 & w1 & -> & ST' & W1).
    { destruct ws as [|w0 w1]; [destruct ST as [X|(? & X)]; [discriminate X|discriminate X]|]. inversion_clear WS. exists w0, w1. repeat split; auto.
      destruct ST as [X|(w' & X)]; [now left|right]. injection X as -> ->. auto. }
    assert (lex_runes U [] ((ws0 :: w1) ++ r :: rest) = posting_line U (w1 ++ r :: rest)) as ->.
    { destruct ST' as [->|[-> H]]; [reflexivity|]. cbn [app]. unfold lex_runes. cbn. destruct (w1 ++ r :: rest) as [|x l0]; [destruct w1; discriminate|].
      cbn in H. subst x. reflexivity. }
    unfold posting_line.
    assert (drop_space (w1 ++ r :: rest) = r :: rest) as ->.
    { clear -W1 NS. induction W1 as [|c w1 S F IH]; cbn [app].
      - now apply drop_space_id.
      - cbn [drop_space]. now rewrite S. }
    rewrite letter_no_comment with (U := U) by assumption. rewrite LR. destruct (account_name [] false (r :: rest)) as [account rs1].
    destruct rs1 as [|z0 rs1]; [exists account, None; reflexivity|].
    destruct (commodity_name U (drop_space (z0 :: rs1))) as [commodity rs2]. eexists account, (Some (_, _)). reflexivity. }
  destruct am as [[c w]|]; [right|left; exists a; exact L].
  destruct (flat_ok_member _ _ _ _ _ _ (expand_stops U fs depth hint f) FL I) as (b1 & b2 & es2 & LO).
  unfold flat_line in LO. rewrite L in LO. cbn [posting_items flat_items flat_item] in LO.
  apply fbind_ok in LO as (b3 & ? & ? & _ & LO & _). apply fbind_ok in LO as (b4 & ? & ? & _ & LO & _). apply fbind_ok in LO as (b5 & ? & ? & LO & _).
  unfold built in LO. destruct (build b4 amountItem w) as [b6|?|] eqn:B; try discriminate.
  assert (exists q, parseAmount w = POk q) as (q & Q).
  { destruct (parseAmount w) as [q|e|] eqn:PA; [eauto|exfalso..];
    (unfold build, buildPeriodicTransaction, buildNormalTransaction in B; rewrite PA in B;
     destruct (b_type b4); [|destruct (b_ptxn b4); [|discriminate]]; (destruct (negb _); [discriminate|]); destruct (b_cur b4); discriminate). }
  exists (encode a, Amount (encode c) q).
  assert (line_posting U l = [(encode a, Amount (encode c) q)]) as LP.
  { unfold line_posting. rewrite L. cbn [fst posting_items]. now rewrite Q. }
  split; [exact LP|].
  eapply subseq_in; [exact SUB|]. apply in_flat_map. exists (FLine l). split; [exact I|]. cbn [fline_posting]. rewrite LP. now left.
Qed.
Example C53_example : indented_letter U0 (lit "  Expenses:Food    $10.00") /\
  line_posting U0 (lit "  Expenses:Food    $10.00") = [(lit "Expenses:Food", Amount (lit "$") 1000)] /\
  In (FLine (lit "  Expenses:Food    $10.00")) (expand U0 no_files 5 (lit "j") (File (lit "2020-01-02 Shop
  Expenses:Food    $10.00
  Assets:Cash
") false)).
Proof.
  split; [|split; [vm_compute; reflexivity|vm_compute; right; left; reflexivity]].
  exists (lit "  "), 69, (lit "xpenses:Food    $10.00"). split; [vm_compute; reflexivity|].
  split; [repeat constructor|]. split; [reflexivity|]. split; [reflexivity|]. right. exists []. reflexivity.
Qed.

(** ** C54: header notes are kept whole *)

(** False: after a single space the first character of the note is lost. *)
Theorem C54_first_letter_refuted : exists t,
  trace U0 no_files 5 (lit "j") (File (lit
"2020-01-02 Shop ; note
  A    $1
  B    $-1
") false) = ([ETxn t (lit "j")], SOk) /\ t_payee t = lit "Shop" /\ t_headernote t = lit "ote".
Proof.
  exists (Txn (Date 2020 1 2) NoState (lit "Shop") [Posting [] (lit "A") (cents "$" 100); Posting [] (lit "B") (cents "$" (-100))] None (lit "ote") []).
  repeat split; vm_compute; reflexivity.
Qed.

(** After two or more spaces it is kept: the header items of any header line so
    written, read from any state. *)
Theorem C54_spaced_note_partial : forall U sep w d s i j payee k c m note b,
  separator sep -> ymd_text sep d w -> real_date d -> spelt (payee_text s) payee -> comment_sign c -> spelt remark note ->
  snd (close_open b) = SOk ->
  exists b' t, snd (flat_line U (w ++ spaces (1 + i) ++ mark_text s j ++ payee ++ spaces (2 + k) ++ [c] ++ spaces m ++ note) b) = SOk /\
    fst (fst (flat_line U (w ++ spaces (1 + i) ++ mark_text s j ++ payee ++ spaces (2 + k) ++ [c] ++ spaces m ++ note) b)) = b' /\
    b_txn b' = Some t /\ t_date t = d /\ t_state t = s /\ t_payee t = payee /\ t_headernote t = note.
Proof.
  intros U sep w d s i j payee k c m note b S T R P CS N CL.
  pose proof (HeaderNote sep w d s i j payee k c m note S T R P CS N) as HW.
  set (l := w ++ _) in *.
  destruct (header_lexed U [] l d s payee note HW) as (w' & rp & nts & L & PD & <- & No).
  unfold flat_line. rewrite L. unfold header_items.
  pose proof (header_result b w' (state_items (mark_of s)) rp nts) as X. cbn zeta in X.
  destruct (close_open b) as [[b1 es1] r1] eqn:CO. cbn in CL. subst r1. rewrite PD in X.
  destruct X as (t & X & ET).
  - unfold state_items. destruct s; cbn; [now left|right; eexists; split; [|reflexivity]; now left|right; eexists; split; [|reflexivity]; now right].
  - destruct No as [[-> _]|(rn & -> & _)]; [now left|right; eexists; reflexivity].
  - rewrite X. do 2 eexists. split; [reflexivity|]. split; [reflexivity|]. cbn [fst b_txn]. rewrite ET.
    split; [reflexivity|]. destruct No as [[-> ->]|(rn & -> & <-)]; destruct s; cbn; auto.
Qed.

(** ... and it reaches the handler: see [C55_text_kept]. *)

(** ** C55: text survives *)
Theorem C55_decoded_is_valid : forall s, Forall (fun r => valid_rune r = true) (decode s).
Proof. exact decode_valid. Qed.
Theorem C55_decode_encode : forall rs, Forall (fun r => valid_rune r = true) rs -> decode (encode rs) = rs.
Proof. exact decode_encode. Qed.
Theorem C55_encode_decode : forall s, (exists rs, Forall (fun r => valid_rune r = true) rs /\ s = encode rs) -> encode (decode s) = s.
Proof. intros s (rs & V & ->). now rewrite decode_encode. Qed.

(** A journal written in the usual form is delivered as written: payees, notes,
    accounts, commodities and comments byte for byte. *)
Theorem C55_text_kept : forall U fs depth hint ls ts,
  journal_written U ls ts -> Forall readable ls -> Forall complete ts ->
  trace U fs depth hint (File (text_of ls) false) = (map (fun t => ETxn t hint) ts, SOk).
Proof. exact written_read. Qed.

(** One amount may be left out; the transaction delivered has it filled in. *)
Theorem C55_filled_in : forall U fs depth hint ls ts ts',
  journal_written U ls ts -> Forall readable ls -> Forall2 settled ts ts' ->
  trace U fs depth hint (File (text_of ls) false) = (map (fun t => ETxn t hint) ts', SOk).
Proof. exact settled_written_read. Qed.

Definition cafe : list Z := [67; 97; 102; 233].
Definition cafe_txn : transaction :=
  Txn (Date 2020 2 29) ClearedState (encode cafe)
    [Posting [lit "two; for us"] (lit "Expenses:Eating out") (cents "$" 450);
     Posting [] (lit "Assets:Cash") (cents "$" (-450))] None (lit "with Zoe") [].
Definition cafe_lines : list str :=
  [lit "2020/02/29 * " ++ encode cafe ++ lit "   ;with Zoe"; lit "    Expenses:Eating out  $4.50"; lit "      ; two; for us";
   lit "    Assets:Cash    $-4.50"; []].
Lemma cafe_txn_written : txn_written U0 (removelast cafe_lines) cafe_txn.
Proof.
  apply (TxnWritten U0 (lit "2020/02/29 * " ++ encode cafe ++ lit "   ;with Zoe") (Date 2020 2 29) ClearedState (encode cafe) (lit "with Zoe")
           [] [] [lit "    Expenses:Eating out  $4.50"; lit "      ; two; for us"; lit "    Assets:Cash    $-4.50"]); try discriminate; try constructor.
  - apply (HeaderNote 47 (lit "2020/02/29") (Date 2020 2 29) ClearedState 0 1 (encode cafe) 1 59 0 (lit "with Zoe")); [right; now right| | | |now left|].
    + apply (YMD 47 (Date 2020 2 29) (lit "2020") (lit "02") (lit "29")); (split; [reflexivity|]); split; try reflexivity;
        repeat constructor; cbn; lia.
    + right. right. right. cbn. repeat split. { exists 505. reflexivity. } left. intros [x X]. lia.
    + exists cafe. split; [valid_runes|]. split; [|reflexivity]. split; [|right; now left].
      repeat split; try discriminate; try valid_runes.
    + exists (lit "with Zoe"). split; [valid_runes|]. split; [split; discriminate|reflexivity].
  - apply (MorePostings U0 (lit "    Expenses:Eating out  $4.50") (Posting [] (lit "Expenses:Eating out") (cents "$" 450)) [lit "      ; two; for us"] [lit "two; for us"]).
    + apply (AmountLine U0 2 (lit "Expenses:Eating out") 0 (lit "$") (lit "4.50") 450).
      * apply spelt_account; [asciis|letters].
      * exists (lit "$"). split; [valid_runes|]. split; [|reflexivity]. exists (lit "$"). repeat split; [|now left].
        repeat constructor.
      * apply (CentsAmount [] 1 (lit "4") (lit "50") 50); [constructor|discriminate|repeat constructor; cbn; lia|].
        split; [reflexivity|]. split; [repeat constructor; cbn; lia|reflexivity].
      * unfold in_int64, two63. lia.
    + constructor; [|constructor]. apply (RemarkLine 4 59 1 (lit "two; for us")); [now left|].
      exists (lit "two; for us"). split; [valid_runes|]. split; [split; discriminate|reflexivity].
    + apply (MorePostings U0 (lit "    Assets:Cash    $-4.50") (Posting [] (lit "Assets:Cash") (cents "$" (-450))) [] []); [|constructor|constructor].
      apply (AmountLine U0 2 (lit "Assets:Cash") 2 (lit "$") (lit "-4.50") (-450)).
      * apply spelt_account; [asciis|letters].
      * exists (lit "$"). split; [valid_runes|]. split; [|reflexivity]. exists (lit "$"). repeat split; [|now left].
        repeat constructor.
      * apply (CentsAmount [45] (-1) (lit "4") (lit "50") 50); [constructor|discriminate|repeat constructor; cbn; lia|].
        split; [reflexivity|]. split; [repeat constructor; cbn; lia|reflexivity].
      * unfold in_int64, two63. lia.
Qed.
Lemma cafe_written : journal_written U0 cafe_lines [cafe_txn].
Proof. apply (MoreTxns U0 (removelast cafe_lines) cafe_txn [] []); [exact cafe_txn_written|constructor]. Qed.
Example C55_example : journal_written U0 cafe_lines [cafe_txn] /\ Forall readable cafe_lines /\ complete cafe_txn /\
  encode cafe = [67; 97; 102; 195; 169].
Proof.
  split; [exact cafe_written|]. split; [|split; [|reflexivity]].
  - repeat constructor; vm_compute; try discriminate; try reflexivity; intro X; repeat (destruct X as [X|X]; [discriminate X|]); exact X.
  - split; [reflexivity|]. split; [repeat constructor; discriminate|reflexivity].
Qed.
(** The same header line, for C54. *)
Example C54_example : fst (lexLine U0 [] (lit "2020/02/29 * " ++ encode cafe ++ lit "   ;with Zoe")) =
  [(dateItem, lit "2020/02/29"); (stateItem, lit "*"); (payeeItem, cafe); (transactionHeaderCommentItem, lit "with Zoe")].
Proof. vm_compute. reflexivity. Qed.

(** ** C56: all commands see the same stream *)
Theorem C56_same_stream : forall S U fs (th : option (S -> transaction -> str -> S * status)) ph depth hint f s,
  let '(evs, r) := trace U fs depth hint f in
  let '(s', r') := deliver_all th ph s evs in
  fst (parse U fs th ph depth hint f s) = s' /\
  match r' with
  | SOk => snd (parse U fs th ph depth hint f s) = r
  | _ => strip_st (snd (parse U fs th ph depth hint f s)) = strip_st r'
  end.
Proof. intros. apply parse_fold. Qed.
