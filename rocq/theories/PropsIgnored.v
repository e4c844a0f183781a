(** * C53: exactly which lines are ignored *)
From Verif Require Import Base BaseFacts Utf8 Utf8Facts Unicode GoTime Strconv Journal Lexer LexSpec LexerFacts LexText LexedFacts
  Parser ParserFacts FlatSpec FlatFacts Spec JournalFacts BuilderFacts LineFacts IncludeFacts PanicFacts WriteFacts Sample PropsParser.

(** The lines without effect, as runes: comments in the first column, and
    indented lines (by a tab or two spaces) that have no visible character or
    whose first one is neither a comment sign nor a letter. *)
Definition skipped (U : unicode) (rs : list Z) : Prop :=
  (exists c rest, rs = c :: rest /\ comment_sign c) \/
  (exists indent ws rest, rs = indent ++ ws ++ rest /\ (indent = [9] \/ indent = [32; 32]) /\
     Forall (fun c => isSpace c = true) ws /\
     (rest = [] \/ exists c rest', rest = c :: rest' /\ isSpace c = false /\ ~ comment_sign c /\ isLetter U c = false)).

(** What may stand in one line of a file. *)
Definition one_line (l : str) : Prop := ~ In 10 l /\ last l 0 <> 13 /\ Z.of_nat (length l) < 4096.

Lemma comment_sign_iff : forall c, comment_sign c <-> isCommentIndicator c = true.
Proof. intro c. unfold comment_sign, isCommentIndicator, c_semi, c_hash. rewrite orb_true_iff, !Z.eqb_eq. tauto. Qed.

Lemma drop_space_split : forall rs, exists ws, rs = ws ++ drop_space rs /\ Forall (fun c => isSpace c = true) ws.
Proof.
  induction rs as [|r rs (ws & E & F)]; [exists []; split; [reflexivity|constructor]|]. cbn [drop_space]. destruct (isSpace r) eqn:S.
  - exists (r :: ws). split; [cbn [app]; now f_equal|]. constructor; assumption.
  - exists []. split; [reflexivity|constructor].
Qed.
Lemma drop_space_ws : forall ws rs, Forall (fun c => isSpace c = true) ws -> drop_space (ws ++ rs) = drop_space rs.
Proof. intros ws rs F. induction F as [|c ws S _ IH]; [reflexivity|]. cbn [app drop_space]. now rewrite S. Qed.

Lemma skipped_lexes : forall U hint rs, skipped U rs -> lex_runes U hint rs = ([], None).
Proof.
  intros U hint rs [(c & rest & -> & C)|(ind & ws & rest & -> & I & W & R)].
  - cbn [lex_runes]. apply comment_sign_iff in C. now rewrite C.
  - assert (P : posting_line U (ws ++ rest) = ([], None) /\ posting_line U (32 :: ws ++ rest) = ([], None)).
    { unfold posting_line. change (32 :: ws ++ rest) with ([32] ++ ws ++ rest). rewrite (drop_space_ws [32]) by (repeat constructor).
      rewrite (drop_space_ws ws) by exact W. destruct R as [->|(c & rest' & -> & S & N & L)]; [split; reflexivity|].
      cbn [drop_space]. rewrite S, L. destruct (isCommentIndicator c) eqn:Q; [apply comment_sign_iff in Q; contradiction|]. split; reflexivity. }
    destruct I as [->| ->]; [exact (proj1 P)|exact (proj2 P)].
Qed.

Lemma lexes_nothing : forall U hint rs, lex_runes U hint rs = ([], None) -> skipped U rs.
Proof.
  intros U hint [|r rs] H; [discriminate|]. cbn [lex_runes] in H. destruct (isCommentIndicator r) eqn:C.
  { left. exists r, rs. split; [reflexivity|now apply comment_sign_iff]. }
  destruct (r =? c_i). { unfold include_line in H. destruct (until_space (r :: rs)) as [d rs1]. destruct (negb _); [discriminate|].
    destruct (space_width rs1 =? 0); [discriminate|]. destruct (fst (to_tab [] (drop_space rs1))); discriminate. }
  destruct (r =? c_tilde). { unfold period_line in H. destruct (space_width rs =? 0); discriminate. }
  destruct (isNumber U r). { unfold header_line in H. destruct (until_space (r :: rs)) as [d rs1].
    destruct (match drop_space rs1 with [] => _ | _ => _ end) as [st rs3]. destruct (to_tab [] rs3) as [py rs4]. discriminate. }
  assert (K : exists ind w, r :: rs = ind ++ w /\ (ind = [9] \/ ind = [32; 32]) /\ drop_space rs = drop_space w /\ posting_line U rs = ([], None)).
  { destruct (r =? c_tab) eqn:T; cbn [orb] in H.
    - apply Z.eqb_eq in T. subst r. exists [9], rs. auto.
    - destruct (r =? c_space) eqn:Sp; cbn [andb] in H; [|discriminate]. destruct rs as [|r2 rs]; [discriminate|].
      destruct (r2 =? c_space) eqn:S2; [|discriminate]. apply Z.eqb_eq in Sp, S2. subst r r2. exists [32; 32], rs.
      split; [reflexivity|]. split; [now right|]. split; [reflexivity|exact H]. }
  destruct K as (ind & w & -> & I & D & P). unfold posting_line in P. rewrite D in P. right.
  destruct (drop_space_split w) as (ws & E & F). exists ind, ws, (drop_space w). split; [now rewrite <- E|]. split; [exact I|]. split; [exact F|].
  pose proof (drop_space_hd w) as Sp. destruct (drop_space w) as [|c rest]; [now left|right]. exists c, rest. split; [reflexivity|]. cbn [hd] in Sp.
  split; [exact Sp|]. destruct (isCommentIndicator c) eqn:Q; [discriminate|]. split; [intro X; apply comment_sign_iff in X; congruence|].
  destruct (isLetter U c); [|reflexivity]. destruct (account_name [] false (c :: rest)) as [a rs1]. destruct rs1 as [|z rs1]; [discriminate|].
  destruct (commodity_name U (drop_space (z :: rs1))) as [cm rs2]. discriminate.
Qed.

(** Such a line may be added to or left out of any of the files, at any place:
    any command does the same. *)
Theorem C53_ignored_inert : forall S U fs fs' th ph depth hint f f' (s : S),
  let ok c (_ : str) := one_line c /\ skipped U (decode c) in
  files_related (line_inserted ok) fs fs' -> f_bad f = f_bad f' ->
  (f_bytes f = f_bytes f' \/ line_inserted ok (f_bytes f) (f_bytes f')) ->
  fst (parse U fs th ph depth hint f s) = fst (parse U fs' th ph depth hint f' s) /\
  up_to_lines (snd (parse U fs th ph depth hint f s)) (snd (parse U fs' th ph depth hint f' s)).
Proof.
  intros S U fs fs' th ph depth hint f f' s ok FR B L.
  assert (K : forall a b, line_inserted ok a b -> similar U (file_lines a) (file_lines b)).
  { intros a b H. destruct H as [before c after St N Ln ((_ & Cr & _) & Sk)].
    rewrite file_lines_inserted, file_lines_start by assumption. apply similar_app; [apply similar_refl|].
    rewrite chop_cr_id by exact Cr. apply sim_skip; [|apply similar_refl]. intro h. rewrite lexLine_spec. now apply skipped_lexes. }
  apply parse_agree; [|assumption|].
  - intro p. specialize (FR p). destruct (fs p), (fs' p); auto. destruct FR as [FB [->|I]]; (split; [assumption|]).
    + apply similar_refl.
    + now apply K.
  - destruct L as [->|I]; [apply similar_refl|now apply K].
Qed.

(** No other line is without effect: for each there is a journal that reads
    differently with and without it, even when line numbers are disregarded. *)
Definition reading (U : unicode) (text : str) : list entry * status :=
  let '(evs, r) := trace U no_files 0 (lit "j") (File text false) in
  (map erase evs, match r with SErr e => SErr (forget_lines e) | _ => r end).

Lemma reading_ok : forall U text es, reading U text = (es, SOk) -> entries U no_files 0 (lit "j") (File text false) = (es, SOk).
Proof.
  intros U text es. unfold reading. destruct (trace_flat U no_files 0 (lit "j") (File text false)) as [A B].
  destruct (trace U no_files 0 (lit "j") (File text false)) as [evs r]. cbn [fst snd] in *. intro H. injection H as <- H.
  assert (r = SOk) as -> by (destruct r; congruence). symmetry in B. apply strip_ok in B.
  destruct (entries U no_files 0 (lit "j") (File text false)) as [es' r']. cbn [fst snd] in *. congruence.
Qed.

Definition opened : str := lit "2020-01-02 x" ++ [10].
Definition halfway : str := lit "2020-01-02 x" ++ [10] ++ lit "  A    $1" ++ [10].
Definition other_half : str := lit "  B    $-1" ++ [10].

Definition txn0 : transaction := Txn (Date 2020 1 2) NoState [120] [] None [] [].
Definition open0 : builder := Builder normalTransaction (Some txn0) None (Some newPosting) (Some payeeItem).
Definition alone0 : transaction := Txn (Date 2020 1 2) NoState [120] [Posting [] [] None] (Some 0%nat) [] [].

Lemma flat_opened : forall U l, one_line l -> entries U no_files 0 (lit "j") (File (opened ++ l ++ [10] ++ []) false) =
  match included U (lit "j") l with
  | Some p => ([], SDeep)
  | None => let '(_, es, r) := fbind (flat_line U l open0) (fun b => flat U [FLine []] b) in (es, r)
  end.
Proof.
  intros U l (N & Cr & Ln). unfold entries, expand. cbn [f_bad f_bytes].
  rewrite file_lines_inserted by (try assumption; right; eexists; reflexivity). rewrite chop_cr_id by exact Cr.
  change (file_lines opened) with [Line (lit "2020-01-02 x")]. change (file_lines []) with (@nil line). cbn [app expand_lines].
  change (included U (lit "j") (lit "2020-01-02 x")) with (@None str). cbn [flat].
  change (flat_line U (lit "2020-01-02 x") newBuilder) with (open0, @nil entry, SOk).
  destruct (included U (lit "j") l) as [p|]; [reflexivity|].
  unfold fbind at 1. cbn [flat app]. destruct (fbind (flat_line U l open0) _) as [[b es] r]. reflexivity.
Qed.

Lemma letter_acc : forall U c rest a rs1, isLetter U c = true -> isSpace c = false -> account_name [] false (c :: rest) = (a, rs1) -> a <> [].
Proof.
  intros U c rest a rs1 L Sp H. eapply account_name_nonempty; [exact H| |discriminate]. intros _. right. exists c, rest. split; [reflexivity|].
  split; intros ->; discriminate.
Qed.
Lemma encode_nonempty : forall a, a <> [] -> encode a <> [].
Proof.
  intros [|x a] N; [contradiction|]. intro H. unfold encode in H. cbn [flat_map] in H. apply app_eq_nil in H as [H _].
  unfold encode_rune in H. repeat match type of H with (if ?b then _ else _) = _ => destruct b end; discriminate.
Qed.

Lemma matters : forall U l, decode l <> [] -> (forall hint, lexLine U hint l <> ([], None)) -> included U (lit "j") l = None ->
  let '(_, es, r) := fbind (flat_line U l open0) (fun b => flat U [FLine []] b) in r = SOk -> es <> [TxnEntry alone0].
Proof.
  intros U l Ne Nt Inc. specialize (Nt []). apply included_none in Inc. unfold included in Inc. unfold flat_line.
  rewrite lexLine_spec in *. destruct (decode l) as [|r rs]; [contradiction|]. clear Ne. cbn [lex_runes] in *.
  destruct (isCommentIndicator r); [contradiction|].
  destruct (r =? c_i).
  { unfold include_line in *. destruct (until_space (r :: rs)) as [d rs1]. destruct (negb _); [cbn; discriminate|].
    destruct (space_width rs1 =? 0); [cbn; discriminate|]. destruct (fst (to_tab [] (drop_space rs1))); [cbn; discriminate|discriminate]. }
  destruct (r =? c_tilde).
  { unfold period_line in *. destruct (space_width rs =? 0); [cbn; discriminate|]. generalize (fst (to_tab [] (drop_space rs))) as w. intro w. cbn. destruct (is_pnone (pe_interval (parsePeriod w))); cbn; discriminate. }
  destruct (isNumber U r).
  { clear Nt Inc. unfold header_line. destruct (until_space (r :: rs)) as [d rs1].
    assert (S : exists st rs3, (match drop_space rs1 with
       | [] => ([], []) | r0 :: rs' => if (r0 =? c_bang) || (r0 =? c_star) then ([(stateItem, [r0])], drop_space rs') else ([], drop_space rs1) end) = (st, rs3) /\
       (st = [] \/ exists c, st = [(stateItem, [c])])).
    { destruct (drop_space rs1) as [|c rs2]; [eauto|]. destruct ((c =? c_bang) || (c =? c_star)); eauto 6. }
    destruct S as (st & rs3 & Q & S). replace (match drop_space rs1 with [] => _ | _ => _ end) with (st, rs3) by (rewrite <- Q; destruct (drop_space rs1); reflexivity).
    clear Q. destruct (to_tab [] rs3) as [py rs4].
    assert (M : exists note, (match trimSpaceStart rs4 with [] => [] | _ :: note => [(transactionHeaderCommentItem, trimSpaceStart note)] end) = note /\
      (note = [] \/ exists c, note = [(transactionHeaderCommentItem, c)])).
    { destruct (trimSpaceStart rs4); eauto. }
    destruct M as (note & -> & M).
    cbn [app flat_items flat_item]. change (close_open open0) with (Builder normalTransaction None None None (Some payeeItem), [TxnEntry alone0], SOk).
    unfold rewrap, built, build. cbn [beginTransaction b_type buildNormalTransaction]. destruct (parseDate d) as [dt|e|]; [|cbn; discriminate..].
    destruct S as [->|[c ->]]; destruct M as [->|[c' ->]]; cbn; discriminate. }
  destruct ((r =? c_tab) || _); [|cbn; discriminate].
  unfold posting_line in *. pose proof (drop_space_hd rs) as Sp. destruct (drop_space rs) as [|c rest]; [contradiction|]. cbn [hd] in Sp.
  destruct (isCommentIndicator c); [cbn; discriminate|]. destruct (isLetter U c) eqn:L; [|contradiction].
  destruct (account_name [] false (c :: rest)) as [a rs1] eqn:A. apply (letter_acc U) in A; [|assumption..]. apply encode_nonempty in A.
  destruct rs1 as [|z rs1].
  - cbn. destruct (encode a) as [|e1 e]; [contradiction|]. cbn. discriminate.
  - destruct (commodity_name U (drop_space (z :: rs1))) as [cm rs2]. cbn [flat_items flat_item].
    generalize (if 0 <? space_width rs2 then cm ++ [c_space] else cm) as cm'. generalize (fst (to_tab [] (drop_space rs2))) as w. intros w cm'.
    cbn. unfold built, build. cbn. destruct (parseAmount w) as [q|e|]; cbn; try discriminate.
    match goal with |- context [negb ?b] => destruct (negb b) end; cbn; discriminate.
Qed.

Theorem C53_ignored_only : forall U l, one_line l -> ~ skipped U (decode l) ->
  exists before after, line_start before /\ reading U (before ++ l ++ [10] ++ after) <> reading U (before ++ after).
Proof.
  intros U l O N. assert (Nt : forall hint, lexLine U hint l <> ([], None)).
  { intros hint H. rewrite lexLine_spec in H. apply lexes_nothing in H. contradiction. }
  destruct (decode l) as [|r rs] eqn:D.
  - exists halfway, other_half. split; [right; exists (lit "2020-01-02 x" ++ [10] ++ lit "  A    $1"); reflexivity|].
    assert (l = []) as ->.
    { destruct l as [|b l]; [reflexivity|]. rewrite decode_cons in D by discriminate. discriminate. }
    vm_compute. discriminate.
  - exists opened, []. split; [right; exists (lit "2020-01-02 x"); reflexivity|]. intro X.
    change (reading U (opened ++ [])) with ([TxnEntry alone0], SOk) in X. apply reading_ok in X. rewrite flat_opened in X by exact O.
    destruct (included U (lit "j") l) as [p|] eqn:I; [discriminate|].
    assert (Ne : decode l <> []) by (rewrite D; discriminate). pose proof (matters U l Ne Nt I) as M.
    destruct (fbind (flat_line U l open0) _) as [[b es] st]. injection X as -> ->. now apply M.
Qed.

(** The two together, for journals of one file: a line is ignored everywhere
    exactly when it is of these kinds. *)
Theorem C53_ignored_exactly : forall U l, one_line l ->
  (skipped U (decode l) <-> forall before after, line_start before -> reading U (before ++ l ++ [10] ++ after) = reading U (before ++ after)).
Proof.
  intros U l O. split.
  - intros Sk before after St. unfold reading, trace.
    destruct (C53_ignored_inert _ U no_files no_files (Some rec_th) (Some rec_ph) 0 (lit "j") (File (before ++ after) false) (File (before ++ l ++ [10] ++ after) false) []) as [A B].
    + intro p. exact I.
    + reflexivity.
    + right. destruct O as (N & Cr & Ln). apply (Inserted _ before l after); auto. split; [split; auto|exact Sk].
    + destruct (parse _ _ _ _ _ _ (File (before ++ after) false) _) as [e1 r1]. destruct (parse _ _ _ _ _ _ (File (before ++ l ++ [10] ++ after) false) _) as [e2 r2].
      cbn [fst snd] in *. subst e2. f_equal. destruct r1, r2; cbn in B; congruence.
  - intro H. assert (D : skipped U (decode l) \/ ~ skipped U (decode l)).
    { destruct (lex_runes U [] (decode l)) as [its e] eqn:Q. destruct its, e; [right|left|right|right]; try (intro X; apply (skipped_lexes U []) in X; congruence).
      now apply (lexes_nothing U []). }
    destruct D as [D|D]; [exact D|]. apply C53_ignored_only in D as (before & after & St & D); [|exact O]. destruct (D (H before after St)).
Qed.

Example C53_ignored_example :
  skipped U0 (decode (lit "  (C)    $7")) /\ one_line (lit "  (C)    $7") /\ skipped U0 (decode [9; 49]) /\
  ~ skipped U0 (decode (lit "  C    $7")) /\ ~ skipped U0 (decode (lit "    ; note")) /\ ~ skipped U0 (decode (lit " (C)    $7")).
Proof.
  split; [|split; [|split; [|split; [|split]]]].
  - apply (lexes_nothing U0 []). vm_compute. reflexivity.
  - split; [|split; [vm_compute; discriminate|vm_compute; reflexivity]]. intro I. vm_compute in I. intuition discriminate.
  - apply (lexes_nothing U0 []). vm_compute. reflexivity.
  - intro X. apply (skipped_lexes U0 []) in X. vm_compute in X. discriminate.
  - intro X. apply (skipped_lexes U0 []) in X. vm_compute in X. discriminate.
  - intro X. apply (skipped_lexes U0 []) in X. vm_compute in X. discriminate.
Qed.
