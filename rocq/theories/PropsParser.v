(** * Properties of parsing

    The vocabulary is in Spec.v and FlatSpec.v; [trace] is the parser run with
    handlers that record what they are given. *)
From Verif Require Import Base BaseFacts Utf8 Utf8Facts Unicode GoTime Strconv Journal Lexer LexSpec
  LexerFacts Parser ParserFacts FlatSpec FlatFacts Spec JournalFacts BuilderFacts Sample.

(** ** C01: every delivered transaction balances *)

Theorem C01_delivered_transactions_balance : forall U fs depth hint f ev,
  In ev (fst (trace U fs depth hint f)) ->
  match ev with
  | ETxn t _ => zero64 (total (t_postings t))
  | EPer pt _ => zero64 (total (t_postings (pt_txn pt)))
  end.
Proof.
  intros U fs depth hint f ev H.
  pose proof (entries_balanced U fs depth hint f) as B. rewrite Forall_forall in B.
  destruct (trace_flat U fs depth hint f) as [E _].
  specialize (B (erase ev)). rewrite <- E in B. specialize (B (in_map erase _ _ H)).
  destruct ev; apply B.
Qed.

(** The same for any handlers: whatever property of their state they keep when
    given balanced transactions only, parsing keeps. *)
Theorem C01_handlers_see_balanced_transactions :
  forall S U fs depth hint f (I : S -> Prop) th ph s,
  I s ->
  (forall s t p, I s -> zero64 (total (t_postings t)) -> I (fst (th s t p))) ->
  (forall s pt p, I s -> zero64 (total (t_postings (pt_txn pt))) -> I (fst (ph s pt p))) ->
  I (fst (parse U fs (Some th) (Some ph) depth hint f s)).
Proof.
  intros S U fs depth hint f I th ph s H Hth Hph.
  pose proof (parse_fold U fs (Some th) (Some ph) depth hint f s) as PF.
  pose proof (C01_delivered_transactions_balance U fs depth hint f) as B.
  destruct (trace U fs depth hint f) as [evs r]. cbn [fst] in B.
  assert (I (fst (deliver_all (Some th) (Some ph) s evs))) as K.
  { clear PF. revert s H. induction evs as [|ev evs IH]; intros s H; [assumption|].
    cbn [deliver_all].
    assert (I (fst (deliver (Some th) (Some ph) s ev))) as K.
    { specialize (B ev (or_introl eq_refl)). destruct ev; cbn; auto. }
    destruct (deliver (Some th) (Some ph) s ev) as [s' []]; cbn in K; try assumption.
    apply IH; [|assumption]. intros; apply B; now right. }
  destruct (deliver_all (Some th) (Some ph) s evs) as [s' r'].
  destruct PF as [-> _]. exact K.
Qed.

(** Three transactions; amounts given, inferred, and inferred in a '~' entry. *)
Definition sample1 : str := lit
"2020-01-02 * Shop    ; note
    Expenses:Food    $10.25
    Assets:Cash

2020-01-03 Work
  Assets:Cash    $7.50
  Income:Job    $-7.50
~ 2020-02
  Expenses:Food    $30
".
Example C01_example :
  map (fun ev => match ev with
                 | ETxn t _ => map quantity (t_postings t)
                 | EPer pt _ => map quantity (t_postings (pt_txn pt)) end)
      (fst (trace U0 no_files 5 (lit "j") (File sample1 false)))
  = [[1025; -1025]; [750; -750]; [3000; -3000]].
Proof. reflexivity. Qed.

(** ** C02: Transaction.Close *)

(** Whatever lines were read, the transaction that is closed next (the open one
    with its last posting added, and for a budget entry the automatic source)
    satisfies [elided_ok]: the posting it records is the only one without amount. *)
Theorem C02_elided_posting_is_unique : forall U ls b es r t,
  flat U ls newBuilder = (b, es, r) -> target b = Some t ->
  endNormalTransaction b t = (t, Some ETwoElided) \/
  exists t2 source, elided_ok t2 /\ endNormalTransaction b t = t_close t2 /\
    t2 = Txn (t_date t) (t_state t) (t_payee t) (t_postings t2) (t_elided t2) (t_headernote t) (t_notes t) /\
    t_postings t2 = t_postings t ++ match b_cur b with Some p => [p] | None => [] end ++ source /\
    (source = [] \/ b_type b = periodicTransaction /\ source = [Posting [] BudgetRootID None]).
Proof.
  intros U ls b es r t E T.
  pose proof (flat_balanced U ls) as K. rewrite E in K. destruct K as [K _].
  destruct (good_target _ _ K T) as [W _]. now apply endNormal_close.
Qed.

Theorem C02_close : forall t, elided_ok t ->
  let s := wrap64 (total (t_postings t)) in
  (s = 0 -> t_close t = (t, None)) /\
  (s <> 0 -> (forall p, In p (t_postings t) -> po_amount p <> None) ->
     t_close t = (t, Some EUnbalanced)) /\
  (s <> 0 -> forall before p after,
     t_postings t = before ++ p :: after -> po_amount p = None ->
     t_close t = (with_postings t (before ++ with_amount p
                    (Amount (last_commodity (t_postings t)) (wrap64 (- s))) :: after), None)).
Proof.
  intros t W s. destruct (t_close_spec t W) as (A & B & C). unfold sum64 in *. fold s in A, B, C.
  split; [exact A|]. split; [|exact C]. intros H F. apply B; [exact H|]. now apply Forall_forall.
Qed.

Definition cents (c : String.string) (q : Z) : option amount := Some (Amount (lit c) q).
Example C02_example_infer :
  let t := Txn (Date 2020 1 2) NoState (lit "x")
             [Posting [] (lit "A") (cents "$" 500); Posting [] (lit "B") None;
              Posting [] (lit "C") (cents "" 25)] (Some 1%nat) [] [] in
  elided_ok t /\
  t_postings (fst (t_close t)) =
    [Posting [] (lit "A") (cents "$" 500); Posting [] (lit "B") (cents "$" (-525));
     Posting [] (lit "C") (cents "" 25)].
Proof.
  split; [|reflexivity]. intro i. cbn.
  destruct i as [|[|[|[|i]]]]; cbn; split; try discriminate; try (now intros (p & E & N));
    try (intros (p & E & N); injection E as <-; discriminate).
  eexists. split; reflexivity.
Qed.
Example C02_example_reject :
  snd (trace U0 no_files 5 (lit "j") (File (lit
"2020-01-02 Shop
  Expenses:Food    $10
  Assets:Cash    $-9

") false)) = SErr (EErrorAt (EAt (lit "j") 4 EUnbalanced)).
Proof. reflexivity. Qed.
