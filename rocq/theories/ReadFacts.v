(** * What lines written in the usual form do *)
From Verif Require Import Base BaseFacts Utf8 Utf8Facts Unicode GoTime Strconv Journal Lexer LexSpec
  LexerFacts LexText Parser FlatSpec FlatFacts Spec TextSpec DateFacts.

Section Read.
Variable U : unicode.

Lemma digit_number : forall r, digit r -> isNumber U r = true.
Proof.
  intros r H. unfold digit in H. unfold isNumber.
  replace (r <? 0) with false by (symmetry; apply Z.ltb_ge; lia).
  replace (r <=? 255) with true by (symmetry; apply Z.leb_le; lia).
  replace (between 48 r 57) with true by (symmetry; apply between_iff; lia). reflexivity.
Qed.
Lemma digit_not : forall r k, digit r -> k < 48 \/ 57 < k -> (r =? k) = false.
Proof. unfold digit. intros. apply Z.eqb_neq. lia. Qed.
Lemma digit_no_space : forall r, digit r -> isSpace r = false.
Proof.
  intros r H. unfold isSpace. rewrite !(digit_not r) by (assumption || lia).
  unfold digit in H.
  replace (between 9 r 13) with false by (symmetry; apply between_false; lia).
  replace (between 8192 r 8202) with false by (symmetry; apply between_false; lia). reflexivity.
Qed.

(** ** The date word of a header line *)
Definition date_word (w rest : list Z) : Prop :=
  digit (hd 0 w) /\ Forall (fun r => (r =? c_space) = false) w /\ (rest = [] \/ hd 0 rest = c_space).

Lemma lex_digit : forall hint w rest, digit (hd 0 w) -> w <> [] -> lex_runes U hint (w ++ rest) = header_line (w ++ rest).
Proof.
  intros hint [|r w] rest D N; [congruence|]. cbn in D. cbn [app]. unfold lex_runes.
  unfold isCommentIndicator, c_semi, c_hash, c_i, c_tilde.
  rewrite !(digit_not r) by (assumption || lia). cbn [orb]. now rewrite digit_number.
Qed.

Lemma header_first : forall w rest, date_word w rest -> exists state payee note,
  header_line (w ++ rest) = ((dateItem, w) :: state ++ (payeeItem, payee) :: note, None) /\
  (state = [] \/ exists c, (c = c_bang \/ c = c_star) /\ state = [(stateItem, [c])]) /\
  (note = [] \/ exists n, note = [(transactionHeaderCommentItem, n)]).
Proof.
  intros w rest (D & F & R). unfold header_line. rewrite until_space_clean by assumption.
  destruct (match drop_space rest with
            | [] => ([], [])
            | r0 :: rs' => if (r0 =? c_bang) || (r0 =? c_star) then ([(stateItem, [r0])], drop_space rs')
                           else ([], drop_space rest) end) as [state rs3] eqn:E.
  destruct (to_tab [] rs3) as [payee rs4]. exists state, payee. eexists. split; [reflexivity|]. split.
  - destruct (drop_space rest) as [|r0 rs']; [injection E as <- <-; now left|].
    destruct ((r0 =? c_bang) || (r0 =? c_star)) eqn:M; injection E as <- <-; [|now left].
    right. exists r0. split; [|reflexivity]. apply orb_true_iff in M as [M|M]; apply Z.eqb_eq in M; auto.
  - destruct (trimSpaceStart rs4); [now left|right; eauto].
Qed.

(** Reading a header: the date decides, and the rest cannot fail. *)
Lemma header_result : forall b w state payee note,
  (state = [] \/ exists c, (c = c_bang \/ c = c_star) /\ state = [(stateItem, [c])]) ->
  (note = [] \/ exists n, note = [(transactionHeaderCommentItem, n)]) ->
  let run := flat_items b ((dateItem, w) :: state ++ (payeeItem, payee) :: note) None in
  let '(b1, es1, r1) := close_open b in
  match r1, parseDate w with
  | SOk, POk d => exists t, run = (Builder normalTransaction (Some t) (b_ptxn b1) (Some newPosting)
                                    (Some (match note with [] => payeeItem | _ => transactionHeaderCommentItem end)), es1, SOk) /\
        t = Txn d (match state with [] => NoState | (_, c :: _) :: _ => if c =? c_bang then UnclearedState else ClearedState
                               | _ => NoState end)
                (encode payee) [] None (match note with [] => [] | (_, n) :: _ => encode n end) []
  | SOk, PErr e => exists b', run = (b', es1, SErr (EParsingDate e))
  | SOk, PPanic => exists b', run = (b', es1, SPanic)
  | r, _ => run = (b1, es1, r)
  end.
Proof.
  intros b w state payee note HS HN. cbn zeta. cbn [flat_items flat_item].
  destruct (close_open b) as [[b1 es1] r1]. destruct r1; try (cbn [fbind]; reflexivity).
  rewrite fbind_assoc. cbn [fbind].
  assert (forall bb, b_type bb = normalTransaction -> built bb dateItem w = match parseDate w with
     | PPanic => (bb, [], SPanic) | PErr e => (bb, [], SErr e)
     | POk d => match b_txn bb with None => (bb, [], SPanic) | Some t => (set_prev (set_target bb (set_date t d)) dateItem, [], SOk) end
     end) as BD.
  { intros bb TY. unfold built, build, buildNormalTransaction, target. rewrite TY.
    destruct (parseDate w); try reflexivity. destruct (b_txn bb); reflexivity. }
  rewrite BD by reflexivity. clear BD.
  destruct (parseDate w) as [d|e|].
  - cbn [target beginTransaction b_type b_txn set_target set_prev b_ptxn b_cur b_prev rewrap wrap_err fbind].
    eexists. split; [|reflexivity].
    destruct HS as [->|(c & C & ->)]; destruct HN as [->|(n & ->)];
      cbn [app flat_items flat_item built build buildNormalTransaction b_type prev_in b_prev existsb item_eqb orb negb
           target b_txn set_target set_prev b_ptxn b_cur fbind set_txn set_state set_payee set_headernote
           t_date t_state t_payee t_postings t_elided t_headernote t_notes newTransaction set_date];
      try (destruct C as [->| ->]); cbn; rewrite ?app_nil_r; reflexivity.
  - cbn. rewrite ?app_nil_r. eexists. reflexivity.
  - cbn. rewrite ?app_nil_r. eexists. reflexivity.
Qed.

Lemma flat_line_header : forall l w rest, decode l = w ++ rest -> date_word w rest -> w <> [] ->
  exists state payee note, lexLine U [] l = ((dateItem, w) :: state ++ (payeeItem, payee) :: note, None) /\
  (state = [] \/ exists c, (c = c_bang \/ c = c_star) /\ state = [(stateItem, [c])]) /\
  (note = [] \/ exists n, note = [(transactionHeaderCommentItem, n)]).
Proof.
  intros l w rest E DW N. rewrite lexLine_spec, E, lex_digit by (try assumption; apply DW).
  now apply header_first.
Qed.

Lemma header_not_included : forall hint l w rest, decode l = w ++ rest -> date_word w rest -> w <> [] ->
  included U hint l = None.
Proof.
  intros hint l w rest E DW N. unfold included. rewrite lexLine_spec, E, lex_digit by (try assumption; apply DW).
  destruct (header_first w rest DW) as (state & payee & note & -> & _). reflexivity.
Qed.

(** ** Posting and comment lines inside an open transaction *)

(** After which items an account may come. *)
Definition ready (i : itemType) : Prop :=
  In i [commentItem; transactionHeaderCommentItem; payeeItem; amountItem; accountItem].

(** A transaction is open: finished postings in [t], the last one in [p]. *)
Definition opened (pt : option ptransaction) (t : transaction) (p : posting) (b : builder) : Prop :=
  exists i, ready i /\ b = Builder normalTransaction (Some t) pt (Some p) (Some i).

Definition push (t : transaction) (p : posting) : transaction :=
  match po_account p with [] => t | _ => fst (t_addPosting t p) end.

Definition carry (p : posting) : posting :=
  match po_account p with [] => p | _ => newPosting end.

Definition posting_items (a : list Z) (am : option (list Z * list Z)) : list (itemType * list Z) :=
  (accountItem, a) :: match am with None => [] | Some (c, w) => [(commodityItem, c); (amountItem, w)] end.

Lemma read_account : forall pt t p b a, opened pt t p b ->
  built b accountItem a =
    (Builder normalTransaction (Some (push t p)) pt
       (Some (Posting (po_comments (carry p)) (encode a) (po_amount (carry p)))) (Some accountItem), [], SOk).
Proof.
  intros pt t p b a (i & R & ->). unfold built, build. cbn [b_type buildNormalTransaction].
  assert (negb (prev_in (Builder normalTransaction (Some t) pt (Some p) (Some i))
    [commentItem; transactionHeaderCommentItem; payeeItem; amountItem; accountItem; periodItem]) = false) as ->.
  { destruct R as [<-|[<-|[<-|[<-|[<-|[]]]]]]; reflexivity. }
  cbn [b_cur target b_type b_txn]. unfold push, carry. destruct (po_account p); reflexivity.
Qed.

Lemma read_posting : forall pt t p b a am, opened pt t p b -> po_amount (carry p) = None ->
  match am with
  | None => exists b', flat_items b (posting_items a None) None = (b', [], SOk) /\
      opened pt (push t p) (Posting (po_comments (carry p)) (encode a) None) b'
  | Some (c, w) =>
      match parseAmount w with
      | POk q => exists b', flat_items b (posting_items a am) None = (b', [], SOk) /\
          opened pt (push t p) (Posting (po_comments (carry p)) (encode a) (Some (Amount (encode c) q))) b'
      | PErr e => snd (flat_items b (posting_items a am) None) = SErr (EParsingAmount e)
      | PPanic => snd (flat_items b (posting_items a am) None) = SPanic
      end
  end.
Proof.
  intros pt t p b a am O N. destruct am as [[c w]|].
  - unfold posting_items. cbn [flat_items flat_item]. rewrite (read_account pt t p b a O). rewrite N.
    cbn [fbind]. unfold built, build. cbn [b_type buildNormalTransaction prev_in b_prev existsb item_eqb orb negb b_cur
       po_amount po_comments po_account set_cur set_prev b_txn b_ptxn fbind am_quantity am_commodity].
    destruct (parseAmount w) as [q|e|]; cbn; [|reflexivity|reflexivity].
    eexists. split; [reflexivity|]. eexists. split; [|reflexivity]. cbn. tauto.
  - unfold posting_items. cbn [flat_items flat_item]. rewrite (read_account pt t p b a O), N. cbn.
    eexists. split; [reflexivity|]. eexists. split; [|reflexivity]. cbn. tauto.
Qed.

Lemma read_comment : forall pt t p b c, opened pt t p b ->
  exists b', flat_items b [(commentItem, c)] None = (b', [], SOk) /\
    match po_account p with
    | [] => opened pt (addNote t (encode c)) p b'
    | _ => opened pt t (addComment p (encode c)) b'
    end.
Proof.
  intros pt t p b c (i & R & ->). cbn [flat_items flat_item]. unfold built, build.
  cbn [b_type buildNormalTransaction b_cur]. destruct p as [cs ac am]. cbn [po_account].
  destruct ac; cbn; eexists; (split; [reflexivity|]); eexists; (split; [|reflexivity]); cbn; tauto.
Qed.

(** Closing. *)
Lemma close_opened : forall pt t p b, opened pt t p b ->
  close_open b =
    match t_addPosting t p with
    | (_, Some e) => (b, [], SErr e)
    | (t1, None) =>
        match t_close t1 with
        | (_, Some e) => (b, [], SErr e)
        | (t', None) => (Builder normalTransaction None pt None (b_prev b), [TxnEntry t'], SOk)
        end
    end.
Proof.
  intros pt t p b (i & R & ->). unfold close_open. cbn [b_type b_txn].
  unfold endNormalTransaction. cbn [b_cur is_budget b_type b_ptxn andb].
  destruct (t_addPosting t p) as [t1 [e|]]; [reflexivity|].
  destruct (t_close t1) as [t' [e|]]; reflexivity.
Qed.

End Read.
