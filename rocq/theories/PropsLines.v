(** * Properties of reading files line by line

    Comment lines, blank lines, line ends, over-long lines, one entry per
    header, include cycles. *)
From Verif Require Import Base BaseFacts Utf8 Utf8Facts Unicode GoTime Strconv Journal Lexer LexSpec
  LexerFacts Parser ParserFacts FlatSpec FlatFacts Spec JournalFacts BuilderFacts LineFacts IncludeFacts
  Sample PropsParser.

(** ** C11: column-zero comment lines are inert

    In any of the files of a journal; for any handlers: the same final state,
    hence the same transactions, and the same status up to line numbers. *)
Theorem C11_comment_lines_are_inert : forall S U fs fs' th ph depth hint f f' (s : S),
  files_related (line_inserted comment_line) fs fs' ->
  f_bad f = f_bad f' ->
  (f_bytes f = f_bytes f' \/ line_inserted comment_line (f_bytes f) (f_bytes f')) ->
  fst (parse U fs th ph depth hint f s) = fst (parse U fs' th ph depth hint f' s) /\
  up_to_lines (snd (parse U fs th ph depth hint f s)) (snd (parse U fs' th ph depth hint f' s)).
Proof.
  intros S U fs fs' th ph depth hint f f' s FR B L. apply parse_agree; [|assumption|].
  - intro p. specialize (FR p). destruct (fs p), (fs' p); auto. destruct FR as [FB [->|I]]; (split; [assumption|]).
    + apply similar_refl.
    + now apply comment_inserted_similar.
  - destruct L as [->|I]; [apply similar_refl|now apply comment_inserted_similar].
Qed.

Definition commented : str := lit
"2020-01-02 * Shop    ; note
    Expenses:Food    $10.25
# a comment
    Assets:Cash

2020-01-03 Work
  Assets:Cash    $7.50
  Income:Job    $-7.50
~ 2020-02
  Expenses:Food    $30
".
Example C11_example : line_inserted comment_line sample1 commented.
Proof.
  apply (Inserted comment_line (firstn 56 sample1) (lit "# a comment") (skipn 56 sample1)).
  - right. exists (firstn 55 sample1). reflexivity.
  - vm_compute. intuition discriminate.
  - reflexivity.
  - exists 35. eexists. split; [reflexivity|]. now right.
Qed.

(** ** C12: the blank line before a header is optional *)
Theorem C12_blank_line_before_header_is_inert : forall S U fs fs' th ph depth hint f f' (s : S),
  files_related (line_inserted blank_before_header) fs fs' ->
  f_bad f = f_bad f' ->
  (f_bytes f = f_bytes f' \/ line_inserted blank_before_header (f_bytes f) (f_bytes f')) ->
  fst (parse U fs th ph depth hint f s) = fst (parse U fs' th ph depth hint f' s) /\
  up_to_lines (snd (parse U fs th ph depth hint f s)) (snd (parse U fs' th ph depth hint f' s)).
Proof.
  intros S U fs fs' th ph depth hint f f' s FR B L. apply parse_agree; [|assumption|].
  - intro p. specialize (FR p). destruct (fs p), (fs' p); auto. destruct FR as [FB [->|I]]; (split; [assumption|]).
    + apply similar_refl.
    + now apply blank_inserted_similar.
  - destruct L as [->|I]; [apply similar_refl|now apply blank_inserted_similar].
Qed.

Example C12_example :
  line_inserted blank_before_header sample1 (lit
"2020-01-02 * Shop    ; note
    Expenses:Food    $10.25
    Assets:Cash

2020-01-03 Work
  Assets:Cash    $7.50
  Income:Job    $-7.50

~ 2020-02
  Expenses:Food    $30
").
Proof.
  apply (Inserted blank_before_header (firstn 135 sample1) [] (skipn 135 sample1)).
  - right. exists (firstn 134 sample1). reflexivity.
  - intros [].
  - reflexivity.
  - split; [reflexivity|]. exists (lit "~ 2020-02"). split; [|split; [|split]].
    + right. exists (lit "  Expenses:Food    $30
"). reflexivity.
    + vm_compute. intuition discriminate.
    + reflexivity.
    + right. exists 32. eexists. split; [reflexivity|]. now left.
Qed.

(** ** C13: LF and CRLF *)
Definition crlf_safe (s : str) : Prop :=
  Forall (fun l => last l 0 <> CR /\ Z.of_nat (length l) < 4095) (split LF s).

Theorem C13_crlf : forall S U fs th ph depth hint f (s : S),
  crlf_safe (f_bytes f) ->
  parse U fs th ph depth hint (File (to_crlf (f_bytes f)) (f_bad f)) s = parse U fs th ph depth hint f s.
Proof.
  intros. apply parse_ext; [intro p; destruct (fs p); auto|reflexivity|]. cbn. now apply crlf_lines.
Qed.
(** ... in included files too. *)
Theorem C13_crlf_everywhere : forall S U fs fs' th ph depth hint f (s : S),
  files_related (fun a b => crlf_safe a /\ b = to_crlf a) fs fs' ->
  crlf_safe (f_bytes f) ->
  parse U fs' th ph depth hint (File (to_crlf (f_bytes f)) (f_bad f)) s = parse U fs th ph depth hint f s.
Proof.
  intros S U fs fs' th ph depth hint f s FR SF. apply parse_ext; [|reflexivity|now apply crlf_lines].
  intro p. specialize (FR p). destruct (fs p), (fs' p); auto.
  destruct FR as [-> [->|[C ->]]]; split; auto. now apply crlf_lines.
Qed.
Example C13_example : crlf_safe sample1 /\ to_crlf sample1 <> sample1.
Proof.
  split; [|vm_compute; discriminate]. unfold crlf_safe. vm_compute split.
  repeat constructor; vm_compute; congruence.
Qed.

(** ** C14: the final newline *)
Theorem C14_final_newline : forall S U fs th ph depth hint b bad (s : S),
  b <> [] -> last b 0 <> LF -> last b 0 <> CR ->
  parse U fs th ph depth hint (File (b ++ [LF]) bad) s = parse U fs th ph depth hint (File b bad) s.
Proof.
  intros. apply parse_ext; [intro p; destruct (fs p); auto|reflexivity|]. now apply final_newline_lines.
Qed.
Example C14_example :
  let b := lit "2020-01-02 Shop
  Expenses:Food    $10
  Assets:Cash    $-10" in
  b <> [] /\ last b 0 <> LF /\ last b 0 <> CR /\
  length (fst (trace U0 no_files 5 (lit "j") (File b false))) = 1%nat.
Proof. repeat split; vm_compute; discriminate. Qed.

(** ** C15: over-long lines *)
Theorem C15_lines_are_short : forall S U fs th ph depth hint f (s : S) p f',
  snd (parse U fs th ph depth hint f s) = SOk ->
  reads U fs (hint, f) (p, f') ->
  Forall (fun l => Z.of_nat (length l) < 4096) (split LF (f_bytes f')) /\ f_bad f' = false.
Proof.
  intros S U fs th ph depth hint f s p f' H R.
  apply parse_ok_trace, trace_ok_entries, entries_ok_no_stop in H.
  destruct (no_stop_reads U fs depth (hint, f) (p, f') H R) as (d & _ & N).
  apply no_stop_include in N as (A & B & _). split; [now apply short_lines|assumption].
Qed.

(** The process ends there: nothing of the line or after it is used. *)
Theorem C15_long_line_is_fatal : forall S U fs th ph depth hint (s : S) before long after bad,
  line_start before -> ~ In LF long -> 4096 <= Z.of_nat (length long) ->
  (after = [] \/ exists rest, after = LF :: rest) ->
  snd (parse U fs th ph depth hint (File before false) s) = SOk ->
  snd (parse U fs th ph depth hint (File (before ++ long ++ after) bad) s) = SFatal.
Proof.
  intros S U fs th ph depth hint s before long after bad ST N L A.
  assert (exists ls, file_lines (before ++ long ++ after) = file_lines before ++ LongLine :: ls) as [ls E].
  { rewrite file_lines_start by assumption. unfold file_lines at 2.
    assert (exists t rest, raw_lines [] (long ++ after) = (long, t) :: rest) as (t & rest & E).
    { destruct A as [->|[rest ->]].
      - rewrite app_nil_r. exists false, []. apply (raw_lines_rest long N).
        intros ->. cbn in L. lia.
      - exists true, (raw_lines [] rest). change (long ++ LF :: rest) with (long ++ LF :: rest).
        rewrite raw_lines_app. rewrite raw_lines_line by assumption. reflexivity. }
    rewrite E. exists (map read_line rest). cbn [map]. unfold read_line at 1, bufferSize.
    destruct (Z.leb_spec 4096 (Z.of_nat (length long))); [reflexivity|lia]. }
  unfold parse. 
  assert (forall inc bad n l1 st,
    snd (lexLines U th ph inc hint false n l1 st) = SOk ->
    snd (lexLines U th ph inc hint bad n (l1 ++ LongLine :: ls) st) = SFatal) as K.
  { clear. intros inc bad n l1. revert n. induction l1 as [|[l|] l1 IH]; intros n st H; cbn [app lexLines] in *.
    - reflexivity.
    - destruct (lexLine U hint l) as [items e]. destruct (parseItems th ph inc st items e) as [st' r].
      destruct r; cbn in *; try discriminate. now apply IH.
    - discriminate. }
  destruct depth as [|d]; cbn [run_file f_bytes f_bad]; rewrite E; intro H;
    match goal with
    | |- context [lexLines _ _ _ ?inc _ ?bad ?n _ ?st] =>
        specialize (K inc bad n (file_lines before) st);
        destruct (lexLines U th ph inc hint false n (file_lines before) st) as [s1 r1];
        destruct (lexLines U th ph inc hint bad n (file_lines before ++ LongLine :: ls) st) as [s2 r2]
    end; cbn [snd] in *; destruct r1; try discriminate; rewrite (K eq_refl); reflexivity.
Qed.
Lemma fatal_line : forall U inc hint bad ls, In (FStop SFatal) (expand_lines U inc hint bad ls) ->
  In LongLine ls \/ exists l p, In (Line l) ls /\ included U hint l = Some p /\ In (FStop SFatal) (inc p).
Proof.
  intros U inc hint bad ls. induction ls as [|[l|] ls IH]; cbn [expand_lines]; intro I.
  - destruct bad; destruct I as [I|[]]; discriminate.
  - assert (K : In (FStop SFatal) (expand_lines U inc hint bad ls) -> In LongLine (Line l :: ls) \/
      exists l0 p, In (Line l0) (Line l :: ls) /\ included U hint l0 = Some p /\ In (FStop SFatal) (inc p)).
    { intro J. destruct (IH J) as [L|(l0 & p & A & B & C)]; [left; now right|right; exists l0, p; split; [now right|auto]]. }
    destruct (included U hint l) as [p|] eqn:E.
    + apply in_app_iff in I as [I|I]; [|now apply K]. right. exists l, p. split; [now left|auto].
    + destruct I as [I|I]; [discriminate|now apply K].
  - left. now left.
Qed.
Lemma raw_split : forall s cur w t, In (w, t) (raw_lines cur s) -> ~ In LF cur -> In w (split LF (rev cur ++ s)).
Proof.
  induction s as [|c s IH]; intros cur w t I N; cbn [raw_lines] in I.
  - destruct cur as [|c cur]; [destruct I|]. destruct I as [I|[]]. injection I as <- <-. rewrite app_nil_r. rewrite split_single; [now left|].
    intro J. apply in_rev in J. contradiction.
  - destruct (Z.eqb_spec c newline) as [->|C].
    + change newline with LF in *. assert (SP : forall a b, ~ In LF a -> split LF (a ++ LF :: b) = a :: split LF b) by (intros a b A; rewrite split_app_no_sep by exact A; cbn; now rewrite app_nil_r).
      rewrite SP. { destruct I as [I|I]; [injection I as <- <-; now left|]. right. apply (IH [] w t I). auto. }
      intro J. apply in_rev in J. contradiction.
    + apply IH in I; [|intros [J|J]; [now apply C|contradiction]]. cbn [rev] in I. now rewrite <- app_assoc in I.
Qed.
Lemma long_raw : forall s, In LongLine (file_lines s) -> exists l, In l (split LF s) /\ 4096 <= Z.of_nat (length l).
Proof.
  intros s I. unfold file_lines in I. apply in_map_iff in I as ([w t] & Q & I). exists w. split; [apply (raw_split s [] w t I); auto|].
  unfold read_line, bufferSize in Q. destruct (Z.leb_spec 4096 (Z.of_nat (length w))); [assumption|]. destruct t; discriminate.
Qed.
(** Nothing else ends it so. *)
Lemma flat_line_alive : forall U l b, snd (flat_line U l b) <> SFatal.
Proof.
  intros U l b. unfold flat_line. destruct (lexLine U [] l) as [items e]. revert b. induction items as [|[i c] items IH]; intro b.
  - cbn. destruct e; discriminate.
  - cbn [flat_items].
    assert (C : forall b', snd (close_open b') <> SFatal).
    { intro b'. unfold close_open. destruct (b_type b'); [destruct (b_txn b') as [t|]|destruct (b_ptxn b') as [t|]]; try discriminate;
        destruct (endNormalTransaction _ _) as [t' [er|]]; discriminate. }
    assert (B : forall b' i', snd (built b' i' c) <> SFatal) by (intros b' i'; unfold built; destruct (build b' i' c); discriminate).
    assert (W : forall f x, snd x <> SFatal -> snd (rewrap f x) <> SFatal) by (intros f [[b' es] []]; cbn; congruence).
    assert (D : forall x k, snd x <> SFatal -> (forall b', snd (k b') <> SFatal) -> snd (fbind x k) <> SFatal).
    { intros [[b' es] r] k X K. unfold fbind. specialize (K b'). destruct r; try exact X. destruct (k b') as [[b2 es2] r2]. exact K. }
    apply D; [|exact IH]. unfold flat_item. destruct i; auto.
Qed.
Theorem C15_only_long_lines : forall U fs depth hint f, snd (trace U fs depth hint f) = SFatal ->
  exists p f' l, reads U fs (hint, f) (p, f') /\ In l (split LF (f_bytes f')) /\ 4096 <= Z.of_nat (length l).
Proof.
  intros U fs depth hint f H. destruct (trace_flat U fs depth hint f) as [_ TS]. rewrite H in TS.
  assert (X : snd (entries U fs depth hint f) = SFatal) by (destruct (snd (entries U fs depth hint f)); try discriminate; reflexivity).
  clear H TS. unfold entries in X.
  assert (I : In (FStop SFatal) (expand U fs depth hint f)).
  { revert X. generalize (expand U fs depth hint f) newBuilder. induction l as [|[l0|r] l IH]; intros b X; cbn [flat] in X; [discriminate| |].
    - pose proof (flat_line_alive U l0 b) as N. unfold fbind in X. destruct (flat_line U l0 b) as [[b' es] r]. cbn [snd] in N.
      destruct r; try (cbn in X; congruence). destruct (flat U l b') as [[b2 es2] r2] eqn:Q. right. apply (IH b'). rewrite Q. exact X.
    - cbn in X. subst. now left. }
  clear X. revert hint f I. induction depth as [|d IH]; intros hint f I.
  - cbn [expand] in I. destruct (fatal_line _ _ _ _ _ I) as [L|(l & p & Il & Ip & J)]; [|destruct J as [J|[]]; discriminate].
    destruct (long_raw _ L) as (l & Il & Le). exists hint, f, l. split; [constructor|]. auto.
  - cbn [expand] in I. destruct (fatal_line _ _ _ _ _ I) as [L|(l & p & Il & Ip & J)].
    + destruct (long_raw _ L) as (l & Il & Le). exists hint, f, l. split; [constructor|]. auto.
    + destruct (fs p) as [f1|] eqn:F; [|destruct J as [J|[]]; discriminate].
      destruct (IH p f1 J) as (p2 & f2 & l2 & R & I2 & Le). exists p2, f2, l2. split; [|auto].
      clear -R Il Ip F. remember (p, f1) as a eqn:Ea. remember (p2, f2) as b eqn:Eb. revert p2 f2 Eb.
      induction R as [|p3 f3 l3 p4 f4 R IHR I3 E3 F3]; intros p2 f2 Eb; subst.
      * injection Eb as <- <-. eapply reads_include; [constructor|eassumption..].
      * injection Eb as <- <-. eapply reads_include; [apply (IHR p3 f3 eq_refl)|eassumption..].
Qed.
Example C15_example :
  snd (trace U0 no_files 5 (lit "j") (File (sample1 ++ repeat 59 4096 ++ [LF]) false)) = SFatal /\
  snd (trace U0 no_files 5 (lit "j") (File (sample1 ++ repeat 59 4095 ++ [LF]) false)) = SOk.
Proof. split; vm_compute; reflexivity. Qed.

(** ** C16: one entry per header line, in order

    [expand] lists the lines in the order they are read (C17). *)
Theorem C16_one_entry_per_header : forall U fs depth hint f,
  snd (trace U fs depth hint f) = SOk ->
  map (fun ev => head_of_entry (erase ev)) (fst (trace U fs depth hint f)) =
  flat_map (head_of_line U) (expand U fs depth hint f).
Proof.
  intros U fs depth hint f H. rewrite <- map_map. destruct (trace_flat U fs depth hint f) as [-> _].
  apply entries_heads. now apply trace_ok_entries.
Qed.
(** What [head_of_line] is for a line written out. *)
Example C16_example :
  flat_map (head_of_line U0) (expand U0 no_files 5 (lit "j") (File sample1 false)) =
  [HTxn (Date 2020 1 2) (lit "Shop"); HTxn (Date 2020 1 3) (lit "Work");
   HPer (Period (Date 2020 2 1) (Date 2020 2 1) PNone 0)] /\
  snd (trace U0 no_files 5 (lit "j") (File sample1 false)) = SOk.
Proof. split; reflexivity. Qed.

(** ** C19: cyclic includes *)
Theorem C19_cycles_never_succeed : forall S U fs th ph depth hint f (s : S) p f',
  reads U fs (hint, f) (p, f') -> reads_again U fs (p, f') (p, f') ->
  snd (parse U fs th ph depth hint f s) <> SOk.
Proof.
  intros S U fs th ph depth hint f s p f' R C H.
  apply parse_ok_trace, trace_ok_entries, entries_ok_no_stop in H.
  exact (cycle_never_ok U fs _ _ R C depth H).
Qed.

(** a includes b, b includes c, c includes b. *)
Definition cyclic : list (str * str) :=
  [(lit "d/b", lit "include c
"); (lit "d/c", lit "; back
include b
")].
Example C19_example :
  let root := File (lit "include b
") false in
  reads U0 (disk cyclic) (lit "d/a", root) (lit "d/b", File (lit "include c
") false) /\
  reads_again U0 (disk cyclic) (lit "d/b", File (lit "include c
") false) (lit "d/b", File (lit "include c
") false).
Proof.
  split.
  - eapply reads_include with (l := lit "include b"); [apply reads_self| | |]; [now left|reflexivity|reflexivity].
  - exists (lit "include c"), (lit "d/c"), (File (lit "; back
include b
") false). split; [now left|]. split; [reflexivity|]. split; [reflexivity|].
    eapply reads_include with (l := lit "include b"); [apply reads_self| | |]; [right; now left|reflexivity|reflexivity].
Qed.
