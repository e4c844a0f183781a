(** * Properties of reading: elided amounts, includes, attribution, locations,
      commodities, periods *)
From Verif Require Import Base BaseFacts Utf8 Utf8Facts Unicode GoTime Strconv Journal Lexer LexSpec
  LexerFacts Parser ParserFacts FlatSpec FlatFacts Spec JournalFacts BuilderFacts LineFacts IncludeFacts
  TextSpec JournalText DateFacts AmountFacts LexText ReadFacts WriteFacts BodyFacts InputFacts Sample PropsParser PropsText.

(** ** C03: at most one posting may omit its amount *)

(** False: a second posting without amount that is not the last one is dropped
    silently. *)
Definition two_elided : list str :=
  [lit "2020-01-02   Shop"; lit "  A"; lit "  B"; lit "  C    $10"; lit "  D    $2"].
Definition two_elided_txn : transaction :=
  Txn (Date 2020 1 2) NoState (lit "Shop")
    [Posting [] (lit "A") None; Posting [] (lit "B") None; Posting [] (lit "C") (cents "$" 1000);
     Posting [] (lit "D") (cents "$" 200)] None [] [].

Ltac valid_runes := repeat apply Forall_cons; try apply Forall_nil; reflexivity.
Ltac letters := repeat split; try discriminate; try reflexivity; valid_runes.

Lemma spelt_account : forall s, Forall ascii s -> account_text U0 s -> spelt (account_text U0) s.
Proof. intros s A H. exists s. split; [now apply ascii_valids|]. split; [exact H|]. symmetry. now apply encode_ascii. Qed.

Ltac asciis := apply Forall_forall; let x := fresh in let X := fresh in intros x X; cbn in X; unfold ascii, c_dash in *;
  repeat (destruct X as [<-|X]; [lia|]); destruct X.

Lemma two_elided_written : txn_written U0 two_elided two_elided_txn.
Proof.
  apply (TxnWritten U0 (lit "2020-01-02   Shop") (Date 2020 1 2) NoState (lit "Shop") [] [] []
           [lit "  A"; lit "  B"; lit "  C    $10"; lit "  D    $2"]); try discriminate; try constructor.
  - apply (HeaderPayee 45 (lit "2020-01-02") (Date 2020 1 2) NoState 2 0 (lit "Shop")); [now left| | |].
    + apply (YMD 45 (Date 2020 1 2) (lit "2020") (lit "01") (lit "02")); (split; [reflexivity|]); split; try reflexivity;
        repeat constructor; cbn; lia.
    + left. cbn. split; [auto|lia].
    + exists (lit "Shop"). split; [valid_runes|]. split; [|reflexivity]. right. repeat split; try discriminate; try valid_runes; try reflexivity.
      right. right. repeat split; discriminate.
  - apply (MorePostings U0 (lit "  A") (Posting [] (lit "A") None) [] []); [|constructor|].
    + apply (ElidedLine U0 0 (lit "A")). apply spelt_account; [asciis|letters].
    + apply (MorePostings U0 (lit "  B") (Posting [] (lit "B") None) [] []); [|constructor|].
      * apply (ElidedLine U0 0 (lit "B")). apply spelt_account; [asciis|letters].
      * apply (MorePostings U0 (lit "  C    $10") (Posting [] (lit "C") (cents "$" 1000)) [] []); [|constructor|].
        -- apply (AmountLine U0 0 (lit "C") 2 (lit "$") (lit "10") 1000).
           ++ apply spelt_account; [asciis|letters].
           ++ exists (lit "$"). split; [valid_runes|]. split; [|reflexivity]. exists (lit "$"). repeat split; [|now left].
              repeat constructor.
           ++ apply (WholeAmount [] 1 (lit "10")); [constructor|discriminate|repeat constructor; cbn; lia].
           ++ unfold in_int64, two63. lia.
        -- apply (MorePostings U0 (lit "  D    $2") (Posting [] (lit "D") (cents "$" 200)) [] []); [|constructor|constructor].
           apply (AmountLine U0 0 (lit "D") 2 (lit "$") (lit "2") 200).
           ++ apply spelt_account; [asciis|letters].
           ++ exists (lit "$"). split; [valid_runes|]. split; [|reflexivity]. exists (lit "$"). repeat split; [|now left].
              repeat constructor.
           ++ apply (WholeAmount [] 1 (lit "2")); [constructor|discriminate|repeat constructor; cbn; lia].
           ++ unfold in_int64, two63. lia.
Qed.

Theorem C03_two_elided_refuted : exists ls t p q rest,
  txn_written U0 ls t /\ Forall readable ls /\
  t_postings t = p :: q :: rest /\ elided p /\ elided q /\
  exists t', trace U0 no_files 5 (lit "j") (File (text_of ls) false) = ([ETxn t' (lit "j")], SOk) /\
    map po_account (t_postings t') <> map po_account (t_postings t).
Proof.
  exists two_elided, two_elided_txn. do 3 eexists. split; [exact two_elided_written|]. split.
  { repeat constructor; cbn; try (intro X; repeat (destruct X as [X|X]; [discriminate|]); exact X); try discriminate; lia. }
  split; [reflexivity|]. split; [reflexivity|]. split; [reflexivity|].
  exists (Txn (Date 2020 1 2) NoState (lit "Shop")
    [Posting [] (lit "A") (cents "$" (-1200)); Posting [] (lit "C") (cents "$" 1000);
     Posting [] (lit "D") (cents "$" 200)] (Some 0%nat) [] []).
  split; [vm_compute; reflexivity|discriminate].
Qed.

(** What holds, for every transaction text: it is rejected when its last posting
    and an earlier one have no amount; otherwise only the first posting without
    amount is kept, and the transaction is the text with these postings, closed
    as C02 describes. *)
Theorem C03_elided_postings_partial : forall U fs depth hint ls t before p,
  txn_written U ls t -> Forall readable ls -> t_postings t = before ++ [p] ->
  let result := trace U fs depth hint (File (text_of ls) false) in
  (elided p -> Exists elided before -> fst result = [] /\ strip_st (snd result) = SErr ETwoElided) /\
  (~ (elided p /\ Exists elided before) ->
     exists T, elided_ok T /\
       T = Txn (t_date t) (t_state t) (t_payee t) (kept false (t_postings t)) (t_elided T) (t_headernote t) (t_notes t) /\
       match t_close T with
       | (t', None) => result = ([ETxn t' hint], SOk)
       | (_, Some e) => fst result = [] /\ strip_st (snd result) = SErr (strip e)
       end).
Proof.
  intros U fs depth hint ls t before p TW R EP. cbn zeta.
  destruct (txn_read U ls t newBuilder before p TW closed_new EP) as [A B].
  pose proof (trace_flat U fs depth hint (File (text_of ls) false)) as [TF TS].
  assert (forall ev, In ev (fst (trace U fs depth hint (File (text_of ls) false))) -> event_path ev = hint) as PATH.
  { intros ev I. eapply paths_alone; [|eassumption]. cbn [f_bytes]. rewrite text_lines by assumption.
    intros l IL. apply in_map_iff in IL as (y & E & IL). injection E as ->.
    pose proof (txn_not_included U hint ls t TW) as F. rewrite Forall_forall in F. now apply F. }
  unfold entries in TF, TS. rewrite expand_text in TF, TS by (try assumption; eapply txn_not_included; eassumption).
  destruct (trace U fs depth hint (File (text_of ls) false)) as [evs r]. cbn [fst snd] in *.
  destruct (flat U (map FLine ls ++ [FLine []]) newBuilder) as [[b es] r'] eqn:FL. cbn [fst snd] in *.
  split.
  - intros EL EX. destruct (A EL EX) as (b' & E). injection E as -> -> ->. split; [|exact TS].
    destruct evs; [reflexivity|discriminate].
  - intro NT. destruct (B NT) as (T & W & ET & CL). exists T. split; [exact W|]. split; [exact ET|].
    destruct (t_close T) as [t' [e|]].
    + destruct CL as (b' & E). injection E as -> -> ->. split; [|exact TS]. destruct evs; [reflexivity|discriminate].
    + destruct CL as (b' & E & _). injection E as -> -> ->. cbn in TS. apply strip_ok in TS as ->.
      destruct evs as [|ev [|]]; try discriminate. cbn in TF. injection TF as TF. destruct ev as [t1 p1|]; [|discriminate].
      cbn in TF. injection TF as <-. specialize (PATH _ (or_introl eq_refl)). cbn in PATH. now subst.
Qed.

(** The same, said outright: the postings kept are delivered as they are when
    they add up to zero; otherwise the one without amount receives the amount
    that makes them do so, and if there is none the text is refused. *)
Theorem C03_delivered : forall U fs depth hint ls t before p,
  txn_written U ls t -> Forall readable ls -> t_postings t = before ++ [p] ->
  ~ (elided p /\ Exists elided before) ->
  let result := trace U fs depth hint (File (text_of ls) false) in
  let ps := kept false (t_postings t) in
  (zero64 (total ps) ->
     exists el, result = ([ETxn (Txn (t_date t) (t_state t) (t_payee t) ps el (t_headernote t) (t_notes t)) hint], SOk)) /\
  (~ zero64 (total ps) -> Forall (fun q => ~ elided q) ps ->
     fst result = [] /\ strip_st (snd result) = SErr EUnbalanced) /\
  (~ zero64 (total ps) -> forall former comments account after,
     ps = former ++ Posting comments account None :: after ->
     exists el, result = ([ETxn (Txn (t_date t) (t_state t) (t_payee t)
       (former ++ Posting comments account (Some (Amount (last_commodity ps) (wrap64 (- total ps)))) :: after)
       el (t_headernote t) (t_notes t)) hint], SOk)).
Proof.
  intros U fs depth hint ls t before p TW R EP NT. cbn zeta.
  destruct (C03_elided_postings_partial U fs depth hint ls t before p TW R EP) as [_ B]. cbn zeta in B.
  destruct (B NT) as (T & W & ET & CL). clear B.
  set (ps := kept false (t_postings t)) in *.
  assert (TP : t_postings T = ps) by (rewrite ET; reflexivity).
  destruct (t_close_spec T W) as (C1 & C2 & C3). rewrite TP in C1, C2, C3.
  assert (Z0 : zero64 (total ps) <-> sum64 ps = 0).
  { unfold zero64, sum64. split; intro H.
    - unfold wrap64. rewrite Z.add_mod, H by discriminate. reflexivity.
    - unfold wrap64 in H. assert (X : (total ps + two63) mod two64 = two63) by lia. unfold two63, two64 in X.
      pose proof (Z.div_mod (total ps + 9223372036854775808) 18446744073709551616 ltac:(discriminate)) as D. rewrite X in D.
      replace (total ps) with ((total ps + 9223372036854775808) / 18446744073709551616 * 18446744073709551616) by lia.
      apply Z.mod_mul. discriminate. }
  split; [|split].
  - intro Z. rewrite (C1 (proj1 Z0 Z)) in CL. exists (t_elided T). rewrite <- ET. exact CL.
  - intros Z F. rewrite C2 in CL; [exact CL|intro X; now apply Z, Z0|exact F].
  - intros Z former cs a after S. rewrite (C3 (fun X => Z (proj2 Z0 X)) former _ after S eq_refl) in CL.
    exists (t_elided T). rewrite CL. unfold with_postings, with_amount. cbn [po_comments po_account].
    assert (Q : wrap64 (- sum64 ps) = wrap64 (- total ps)).
    { unfold sum64. replace (- wrap64 (total ps)) with (0 - wrap64 (total ps)) by lia. replace (- total ps) with (0 - total ps) by lia.
      apply wrap64_sub_r. }
    rewrite Q, ET. reflexivity.
Qed.

Example C03_example :
  txn_written U0 two_elided two_elided_txn /\ ~ (elided (Posting [] (lit "D") (cents "$" 200)) /\ Exists elided (firstn 3 (t_postings two_elided_txn))) /\
  map po_account (kept false (t_postings two_elided_txn)) = [lit "A"; lit "C"; lit "D"].
Proof. split; [exact two_elided_written|]. split; [intros [X _]; discriminate X|reflexivity]. Qed.
Example C03_example_last :
  trace U0 no_files 5 (lit "j") (File (text_of [lit "2020-01-02   Shop"; lit "  A"; lit "  C    $10"; lit "  B"]) false)
  = ([], SErr (EErrorAt ETwoElided)).
Proof. vm_compute. reflexivity. Qed.

Example C03_example_filled :
  kept false (t_postings two_elided_txn)
    = [] ++ Posting [] (lit "A") None :: [Posting [] (lit "C") (cents "$" 1000); Posting [] (lit "D") (cents "$" 200)] /\
  ~ zero64 (total (kept false (t_postings two_elided_txn))) /\
  last_commodity (kept false (t_postings two_elided_txn)) = lit "$".
Proof. split; [reflexivity|]. split; [vm_compute; discriminate|reflexivity]. Qed.

(** ** C17: including a file is reading its lines in place *)

(** From any parser state, running an included file has the effect of reading
    its lines (those of the files it includes in place), then a blank line:
    the same builder afterwards, the same entries delivered, the same success
    or error. *)
Theorem C17_include_reads_lines_in_place : forall U fs depth path f st,
  let '(st', r) := run_file U fs (Some rec_th) (Some rec_ph) depth path f st in
  let '(b, es, r') := flat U (expand U fs depth path f) (ps_b st) in
  ps_b st' = b /\ (exists evs, ps_s st' = ps_s st ++ evs /\ map erase evs = es) /\ strip_st r = strip_st r'.
Proof.
  intros U fs depth path f st. pose proof (run_file_flat U fs depth path f st) as X.
  destruct (run_file U fs (Some rec_th) (Some rec_ph) depth path f st) as [st' r].
  destruct (flat U (expand U fs depth path f) (ps_b st)) as [[b es] r'].
  destruct X as (evs & E1 & E2 & E3 & E4). cbn [fst snd] in *. eauto 10.
Qed.

(** Replacing the include line by the text of the file and a blank line gives the
    same entries, when the included file is in the same directory. *)
Theorem C17_inlining_the_text : forall U fs depth hint path before incl after g,
  line_start before -> line_start g -> ~ In LF incl -> Z.of_nat (length incl) < 4096 ->
  included U hint (chop_cr incl) = Some path -> fs path = Some (File g false) -> dir_of path = dir_of hint ->
  let with_include := trace U fs (S depth) hint (File (before ++ incl ++ LF :: after) false) in
  let inlined := trace U fs (S depth) hint (File (before ++ g ++ LF :: after) false) in
  snd with_include = SOk ->
  map erase (fst inlined) = map erase (fst with_include) /\ snd inlined = SOk.
Proof.
  intros U fs depth hint path before incl after g LB LG NI LI IE FE DE with_include inlined OK.
  pose proof (trace_flat U fs (S depth) hint (File (before ++ incl ++ LF :: after) false)) as [E1 E2].
  pose proof (trace_flat U fs (S depth) hint (File (before ++ g ++ LF :: after) false)) as [E3 E4].
  assert (snd (entries U fs (S depth) hint (File (before ++ incl ++ LF :: after) false)) = SOk) as OK'
    by now apply trace_ok_entries.
  assert (entries U fs (S depth) hint (File (before ++ g ++ LF :: after) false) =
          entries U fs (S depth) hint (File (before ++ incl ++ LF :: after) false)) as EE.
  { unfold entries. rewrite (inline_include U fs depth hint path before incl after g); try assumption; [reflexivity|].
    now apply entries_ok_no_stop. }
  split.
  - subst inlined with_include. rewrite E1, E3, EE. reflexivity.
  - apply trace_ok_entries. rewrite EE. exact OK'.
Qed.

Definition part : str := lit
"2020-01-05 Bank
  Assets:Cash    $1
  Income:Interest    $-1
".
Definition whole_disk : str -> option file := disk [(lit "dir/part.j", part)].
Example C17_example :
  included U0 (lit "dir/main.j") (chop_cr (lit "include part.j")) = Some (lit "dir/part.j") /\
  dir_of (lit "dir/part.j") = dir_of (lit "dir/main.j") /\ line_start part /\
  map (fun ev => match ev with ETxn t p => (t_payee t, p) | EPer _ p => ([], p) end)
    (fst (trace U0 whole_disk 5 (lit "dir/main.j") (File (lit
"2020-01-02 Shop
  A    $2
  B
include part.j
2020-01-06 Shop
  A    $2
  B
") false))) = [(lit "Shop", lit "dir/part.j"); (lit "Bank", lit "dir/part.j"); (lit "Shop", lit "dir/main.j")].
Proof.
  split; [vm_compute; reflexivity|]. split; [reflexivity|]. split; [|vm_compute; reflexivity].
  right. exists (removelast part). reflexivity.
Qed.

(** ** C18: include paths are relative to the including file *)

(** False if the directory is not valid UTF-8. *)
Theorem C18_include_path_refuted :
  included U0 ([255; 47] ++ lit "main.j") (lit "include part.j") <> Some ([255; 47] ++ lit "part.j").
Proof. vm_compute. discriminate. Qed.

(** Exactly: the directory as it comes out of reading it as UTF-8 and writing it
    again (bytes that are not UTF-8 become U+FFFD), then the name. *)
Theorem C18_include_exactly : forall U dir base ws name,
  (dir = [] \/ last dir 0 = 47) -> ~ In 47 base ->
  spelt (Forall (fun r => isSpace r = true)) ws -> spelt phrase name ->
  included U (dir ++ base) (lit "include" ++ [32] ++ ws ++ name) = Some (encode (decode dir) ++ name).
Proof.
  intros U dir base ws name D B (rw & VW & SW & ->) (rn & VN & PN & ->).
  unfold included.
  assert (lit "include" ++ [32] ++ encode rw ++ encode rn = encode (lit "include" ++ c_space :: rw ++ rn)) as ->.
  { rewrite !encode_app, (encode_ascii (lit "include")) by asciis. change (c_space :: rw ++ rn) with ([c_space] ++ rw ++ rn).
    rewrite !encode_app. reflexivity. }
  rewrite lex_encoded.
  - rewrite lex_include_written by assumption. now rewrite encode_app, dir_of_app by assumption.
  - apply Forall_app. split; [valid_runes|]. constructor; [reflexivity|]. apply Forall_app. auto.
Qed.

(** So true for every directory in UTF-8 (none, or ending in '/') and every name. *)
Theorem C18_include_path_partial : forall U dir base ws name,
  (dir = [] \/ last dir 0 = 47) -> ~ In 47 base -> valid_utf8 dir ->
  spelt (Forall (fun r => isSpace r = true)) ws -> spelt phrase name ->
  included U (dir ++ base) (lit "include" ++ [32] ++ ws ++ name) = Some (dir ++ name).
Proof. intros U dir base ws name D B V W N. rewrite C18_include_exactly by assumption. now rewrite encode_decode. Qed.

(** ... and this is the path opened: reading stops there if it cannot be. *)
Theorem C18_path_is_opened : forall U fs depth hint path before incl after,
  line_start before -> ~ In LF incl -> Z.of_nat (length incl) < 4096 ->
  included U hint (chop_cr incl) = Some path -> fs path = None ->
  snd (trace U fs (S depth) hint (File (before ++ incl ++ LF :: after) false)) <> SOk.
Proof.
  intros U fs depth hint path before incl after LB NI LI IE FE OK.
  apply trace_ok_entries, entries_ok_no_stop, no_stop_include in OK as (_ & _ & K).
  cbn [f_bytes] in K. pose proof (file_lines_inserted before incl after LB NI LI) as X. cbn [app] in X. rewrite X in K.
  destruct (K (chop_cr incl) path) as (d & f' & _ & F & _); [apply in_or_app; right; now left|assumption|congruence].
Qed.

Example C18_example : included U0 (lit "books/2020/main.j") (lit "include   sub dir/x y.j") = Some (lit "books/2020/sub dir/x y.j").
Proof. vm_compute. reflexivity. Qed.

(** ** C20: transactions are attributed to the file they are written in *)

(** False: a transaction still open at an include line is attributed to the
    included file (see also [C17_example]); and after an include inside an
    included file, the including file's transactions are attributed to the root. *)
Theorem C20_attribution_refuted :
  let fs := disk [(lit "a.j", lit "include b.j
2020-01-05 Bank
  Assets:Cash    $1
  Income:Interest    $-1
"); (lit "b.j", [])] in
  trace U0 fs 5 (lit "main.j") (File (lit "include a.j") false) =
  ([ETxn (Txn (Date 2020 1 5) NoState (lit "Bank")
            [Posting [] (lit "Assets:Cash") (cents "$" 100); Posting [] (lit "Income:Interest") (cents "$" (-100))] None [] [])
      (lit "main.j")], SOk).
Proof. vm_compute. reflexivity. Qed.
Theorem C20_open_transaction_refuted :
  map event_path (fst (trace U0 whole_disk 5 (lit "dir/main.j") (File (lit
"2020-01-02 Shop
  A    $2
  B
include part.j
") false))) = [lit "dir/part.j"; lit "dir/part.j"].
Proof. vm_compute. reflexivity. Qed.

(** True: it is the path of a file that was read, and of the only file if there
    are no includes. *)
Theorem C20_attribution_partial : forall U fs depth hint f ev,
  In ev (fst (trace U fs depth hint f)) ->
  (exists f', reads U fs (hint, f) (event_path ev, f')) /\
  ((forall l, In (Line l) (file_lines (f_bytes f)) -> included U hint l = None) -> event_path ev = hint).
Proof.
  intros U fs depth hint f ev I. split; [eapply trace_paths; eassumption|].
  intro N. eapply paths_alone; eassumption.
Qed.
Example C20_example :
  (forall l, In (Line l) (file_lines (f_bytes (File sample1 false))) -> included U0 (lit "j") l = None) /\
  length (fst (trace U0 no_files 5 (lit "j") (File sample1 false))) = 3%nat.
Proof.
  split; [|reflexivity]. intros l I. change (In (Line l) (file_lines sample1)) in I.
  assert (forallb (fun x => match x with Line l => match included U0 (lit "j") l with None => true | _ => false end | _ => true end)
            (file_lines sample1) = true) as F by reflexivity.
  rewrite forallb_forall in F. specialize (F _ I). cbv beta iota in F. now destruct (included U0 (lit "j") l).
Qed.

(** ** C21: errors name the file and line where reading stopped *)

(** False: what is found wrong at the end of a file names neither. *)
Theorem C21_location_refuted :
  snd (trace U0 no_files 5 (lit "j") (File (lit
"2020-01-02 Shop
  A    $2
  B    $3
") false)) = SErr (EErrorAt EUnbalanced).
Proof. vm_compute. reflexivity. Qed.

(** True, exactly: the error is the one described by [located]: in each file
    from the outermost inwards, the number of the line being read, whose
    predecessors were all read without error; except that a problem at the end of
    a file (a transaction not yet closed, or a failure to read on) carries no line
    in that file. *)
Theorem C21_location_partial : forall U fs depth hint f e,
  snd (trace U fs depth hint f) = SErr e ->
  exists e', e = EErrorAt e' /\ located U fs depth newBuilder hint f e'.
Proof. exact trace_located. Qed.

Example C21_example :
  snd (trace U0 (disk [(lit "a.j", lit "; one
2020-01-02 Shop
  A    $2
  B    $1x
")]) 5 (lit "main.j") (File (lit "
include a.j
") false)) = SErr (EErrorAt (EAt (lit "main.j") 2 (EErrorAt (EAt (lit "a.j") 4 (EParsingAmount (EParseInt (lit "1x"))))))).
Proof. vm_compute. reflexivity. Qed.

(** ** C22: transactions balance per commodity *)
Definition total_of (c : str) (ps : list posting) : Z :=
  total (filter (fun p => str_eqb (commodity_of p) c) ps).

Theorem C22_per_commodity_refuted : exists t,
  trace U0 no_files 5 (lit "j") (File (lit
"2020-01-02 Shop
  A    $2
  B    E-2
") false) = ([ETxn t (lit "j")], SOk) /\ ~ zero64 (total_of (lit "$") (t_postings t)).
Proof.
  exists (Txn (Date 2020 1 2) NoState (lit "Shop")
            [Posting [] (lit "A") (cents "$" 200); Posting [] (lit "B") (cents "E" (-200))] None [] []).
  split; [vm_compute; reflexivity|]. vm_compute. discriminate.
Qed.

(** True for a transaction all of whose postings have the same commodity. *)
Theorem C22_one_commodity_partial : forall U fs depth hint f ev c,
  In ev (fst (trace U fs depth hint f)) ->
  let ps := match ev with ETxn t _ => t_postings t | EPer pt _ => t_postings (pt_txn pt) end in
  Forall (fun p => commodity_of p = c) ps ->
  forall c', zero64 (total_of c' ps).
Proof.
  intros U fs depth hint f ev c I ps F c'. pose proof (C01_delivered_transactions_balance U fs depth hint f ev I) as B.
  assert (zero64 (total ps)) as Z by (destruct ev; exact B). clear B.
  unfold total_of. destruct (str_eqb c c') eqn:E.
  - replace (filter (fun p => str_eqb (commodity_of p) c') ps) with ps; [exact Z|].
    clear Z. induction F as [|p ps H F IH]; [reflexivity|]. cbn. now rewrite H, E, <- IH.
  - replace (filter (fun p => str_eqb (commodity_of p) c') ps) with (@nil posting); [reflexivity|].
    clear Z. induction F as [|p ps H F IH]; [reflexivity|]. cbn. now rewrite H, E, <- IH.
Qed.
Example C22_example : exists t,
  In (ETxn t (lit "j")) (fst (trace U0 no_files 5 (lit "j") (File sample1 false))) /\
  t_postings t <> [] /\ Forall (fun p => commodity_of p = lit "$") (t_postings t).
Proof.
  exists (Txn (Date 2020 1 3) NoState (lit "Work")
            [Posting [] (lit "Assets:Cash") (cents "$" 750); Posting [] (lit "Income:Job") (cents "$" (-750))] None [] []).
  split; [vm_compute; right; left; reflexivity|]. split; [discriminate|]. repeat constructor.
Qed.

(** ** C51: unrecognised periods *)

Theorem C51_period_refuted : exists pt,
  trace U0 no_files 5 (lit "j") (File (lit
"~ next month
  Expenses:Food    $30
") false) = ([EPer pt (lit "j")], SOk) /\ pt_period pt = Period (Date 1 1 1) (Date 1 1 1) PNone 0.
Proof.
  exists (PTxn zero_period (Txn zero_date NoState []
            [Posting [] (lit "Expenses:Food") (cents "$" 3000); Posting [] BudgetRootID (cents "$" (-3000))] (Some 1%nat) [] [])).
  split; [vm_compute; reflexivity|reflexivity].
Qed.

(** YYYY-MM, with a month that exists, is read as that month; every other text is
    silently read as the zero period. *)
Theorem C51_period_partial : forall w, Forall (fun r => valid_rune r = true) w ->
  (forall ys ms y m, numeral 4 ys y -> numeral 2 ms m -> 1 <= m <= 12 -> w = ys ++ [45] ++ ms ->
     parsePeriod w = Period (Date y m 1) (Date y m 1) PNone 0) /\
  ((forall ys ms y m, numeral 4 ys y -> numeral 2 ms m -> 1 <= m <= 12 -> w <> ys ++ [45] ++ ms) ->
     parsePeriod w = Period (Date 1 1 1) (Date 1 1 1) PNone 0).
Proof.
  intros w V. unfold parsePeriod. split.
  - intros ys ms y m NY NM RM ->.
    assert (Forall ascii (ys ++ [45] ++ ms)) as A.
    { destruct NY as (_ & DY & _), NM as (_ & DM & _). repeat (apply Forall_app; split); try asciis;
        (eapply Forall_impl; [|eassumption]); unfold digit, ascii; intros; lia. }
    rewrite encode_ascii by assumption.
    assert (time_parse (layout_ym c_dash) (ys ++ [45] ++ ms) = Some (Date y m 1)) as ->; [|reflexivity].
    apply time_parse_ym. exists ys, ms. auto.
  - intro N. destruct (time_parse (layout_ym c_dash) (encode w)) as [d|] eqn:T; [|reflexivity]. exfalso.
    apply time_parse_ym in T as (ys & ms & NY & NM & RM & RD & E).
    apply (N ys ms _ _ NY NM RM). apply encode_is_ascii in E; [exact E|exact V|].
    destruct NY as (_ & DY & _), NM as (_ & DM & _). repeat (apply Forall_app; split); try (asciis);
        (eapply Forall_impl; [|eassumption]); unfold digit, ascii; intros; lia.
Qed.
Example C51_example : parsePeriod (lit "2020-02") = Period (Date 2020 2 1) (Date 2020 2 1) PNone 0.
Proof. vm_compute. reflexivity. Qed.
