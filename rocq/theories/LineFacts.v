(** * Line-level facts: cutting into lines, inert and optional lines *)
From Verif Require Import Base BaseFacts Utf8 Utf8Facts Unicode GoTime Strconv Journal Lexer LexSpec
  LexerFacts Parser ParserFacts Spec.

(** ** Cutting a text into lines *)

Lemma raw_lines_app : forall a cur b, raw_lines cur (a ++ LF :: b) =
  raw_lines cur (a ++ [LF]) ++ raw_lines [] b.
Proof.
  induction a as [|c a IH]; intros cur b; cbn [app raw_lines].
  - reflexivity.
  - destruct (c =? newline); [cbn [app]; f_equal|]; apply IH.
Qed.

Lemma raw_lines_start : forall before after, line_start before ->
  raw_lines [] (before ++ after) = raw_lines [] before ++ raw_lines [] after.
Proof.
  intros before after [->|[b ->]]; [reflexivity|]. rewrite <- app_assoc. apply raw_lines_app.
Qed.

Lemma raw_lines_line : forall c cur, ~ In LF c -> raw_lines cur (c ++ [LF]) = [(rev cur ++ c, true)].
Proof.
  induction c as [|x c IH]; intros cur N; cbn [app raw_lines].
  - rewrite app_nil_r. reflexivity.
  - destruct (Z.eqb_spec x newline) as [->|E]; [exfalso; apply N; now left|].
    rewrite IH by (intro; apply N; now right). cbn [rev]. now rewrite <- app_assoc.
Qed.

Lemma raw_lines_rest : forall c, ~ In LF c -> c <> [] -> forall cur, raw_lines cur c = [(rev cur ++ c, false)].
Proof.
  induction c as [|x c IH]; intros N NE cur; [congruence|]. cbn [raw_lines].
  destruct (Z.eqb_spec x newline) as [->|E]; [exfalso; apply N; now left|].
  destruct c as [|y c]; [cbn; destruct (rev cur ++ [x]) eqn:K; [now destruct (rev cur)|reflexivity]|].
  rewrite IH; [|intro; apply N; now right|discriminate]. cbn [rev]. now rewrite <- app_assoc.
Qed.

Lemma file_lines_inserted : forall before c after, line_start before -> ~ In LF c ->
  Z.of_nat (length c) < 4096 ->
  file_lines (before ++ c ++ [LF] ++ after) =
  file_lines before ++ Line (chop_cr c) :: file_lines after.
Proof.
  intros before c after S N L. unfold file_lines. rewrite raw_lines_start, map_app by assumption. f_equal.
  change ([LF] ++ after) with (LF :: after). rewrite raw_lines_app, raw_lines_line by assumption.
  cbn. unfold bufferSize. destruct (Z.leb_spec 4096 (Z.of_nat (length c))); [lia|]. reflexivity.
Qed.

Lemma file_lines_start : forall before after, line_start before ->
  file_lines (before ++ after) = file_lines before ++ file_lines after.
Proof. intros. unfold file_lines. now rewrite raw_lines_start, map_app. Qed.

Lemma chop_cr_cons : forall b c, b <> 13 -> exists c', chop_cr (b :: c) = b :: c'.
Proof.
  intros b c N. unfold chop_cr. cbn [rev].
  destruct (rev c) as [|x r] eqn:E; cbn [app].
  - exists c. destruct b as [|p|p]; try reflexivity.
    do 4 (destruct p; try reflexivity). congruence.
  - assert (c = rev r ++ [x]) as -> by (rewrite <- (rev_involutive c), E; reflexivity).
    destruct (Z.eqb_spec x 13) as [->|Nx].
    + rewrite rev_app_distr. cbn. eauto.
    + exists (rev r ++ [x]). destruct x as [|p|p]; try reflexivity.
      do 4 (destruct p; try reflexivity). congruence.
Qed.

Lemma chop_cr_nil : chop_cr [] = [].
Proof. reflexivity. Qed.

Lemma chop_cr_id : forall s, last s 0 <> CR -> chop_cr s = s.
Proof.
  intros s H. unfold chop_cr. destruct (rev s) as [|x r] eqn:E; [reflexivity|].
  assert (s = rev r ++ [x]) as S by (rewrite <- (rev_involutive s), E; reflexivity).
  rewrite S, last_last in H. unfold CR in H.
  destruct x as [|p|p]; try reflexivity. do 4 (destruct p; try reflexivity). congruence.
Qed.

Lemma chop_cr_cr : forall s, chop_cr (s ++ [CR]) = s.
Proof. intro s. unfold chop_cr. rewrite rev_app_distr. cbn. apply rev_involutive. Qed.

(** ** Changing the lines read *)

Lemma up_to_lines_refl : forall r, up_to_lines r r.
Proof. now destruct r. Qed.
Lemma up_to_lines_ok : forall r, up_to_lines SOk r -> r = SOk.
Proof. destruct r; cbn; congruence. Qed.
Lemma up_to_lines_nok : forall r r', up_to_lines r r' -> r <> SOk -> r' <> SOk.
Proof. destruct r, r'; cbn; congruence. Qed.

Section Lines.
Variable U : unicode.

(** Lines that begin a transaction or '~' entry. *)
Definition header (l : str) : Prop :=
  exists i c items e, lexLine U [] l = ((i, c) :: items, e) /\ (i = dateItem \/ i = periodItem).

Inductive similar : list line -> list line -> Prop :=
| sim_nil : similar [] []
| sim_same : forall l ls ls', similar ls ls' -> similar (l :: ls) (l :: ls')
| sim_skip : forall l ls ls', (forall hint, lexLine U hint l = ([], None)) -> similar ls ls' -> similar ls (Line l :: ls')
| sim_blank : forall l ls ls', header l -> similar ls ls' ->
    similar (Line l :: ls) (Line [] :: Line l :: ls').

Lemma similar_refl : forall ls, similar ls ls.
Proof. induction ls; constructor; assumption. Qed.
Lemma similar_app : forall ls ls' ms ms', similar ls ls' -> similar ms ms' -> similar (ls ++ ms) (ls' ++ ms').
Proof. induction 1; intros; cbn [app]; [assumption|apply sim_same|apply sim_skip|apply sim_blank]; auto. Qed.

Lemma comment_lexes : forall hint b c, comment_sign b -> lexLine U hint (b :: c) = ([], None).
Proof.
  intros hint b c H. rewrite lexLine_spec. rewrite decode_cons by discriminate.
  assert (0 <= b <= 127) as A by (destruct H; subst; lia).
  assert (fst (decode_rune (b :: c)) = b) as ->.
  { unfold decode_rune. destruct H; subst; reflexivity. }
  unfold lex_runes. destruct H; subst; reflexivity.
Qed.

Lemma header_lexes : forall hint l, header l ->
  exists i c items e, lexLine U hint l = ((i, c) :: items, e) /\ (i = dateItem \/ i = periodItem).
Proof.
  intros hint l (i & c & items & e & E & T). exists i, c, items, e. split; [|assumption].
  rewrite lexLine_spec in *. unfold lex_runes in *. destruct (decode l) as [|r rs]; [assumption|].
  destruct (isCommentIndicator r); [assumption|]. destruct (r =? c_i); [|assumption].
  exfalso. unfold include_line in E. destruct (until_space (r :: rs)) as [d rs1].
  destruct (negb _); [discriminate|]. destruct (_ =? 0); [discriminate|].
  destruct (fst (to_tab [] (drop_space rs1))); [discriminate|]. injection E as <- _ _ _.
  destruct T; discriminate.
Qed.

Section Handlers.
Context {S : Type}.
Variable th : option (S -> transaction -> str -> S * status).
Variable ph : option (S -> ptransaction -> str -> S * status).

Definition agree (A B : pstate S * status) : Prop := fst A = fst B /\ up_to_lines (snd A) (snd B).

Lemma agree_refl : forall A, agree A A.
Proof. intro. split; [reflexivity|apply up_to_lines_refl]. Qed.

Lemma agree_bind : forall A B kA kB wA wB, agree A B -> (forall st, agree (kA st) (kB st)) ->
  (forall r r', up_to_lines r r' -> up_to_lines (wA r) (wB r')) ->
  agree (bindr A kA wA) (bindr B kB wB).
Proof.
  intros [sa ra] [sb rb] kA kB wA wB [E R] K W. cbn [fst snd] in *. subst sb.
  destruct ra; destruct rb; cbn in R; try discriminate; cbn [bindr]; auto;
    (split; [reflexivity|]; apply W; cbn; auto).
Qed.

Lemma wrap_agree : forall f g r r', up_to_lines r r' ->
  (forall e e', forget_lines e = forget_lines e' -> forget_lines (f e) = forget_lines (g e')) ->
  up_to_lines (wrap_err f r) (wrap_err g r').
Proof. intros f g r r' H W. destruct r, r'; cbn in *; auto; discriminate. Qed.

Definition inc_agree (inc inc' : @includer S) : Prop := forall p st, agree (inc p st) (inc' p st).

Lemma parseItem_agree : forall inc inc' st i c, inc_agree inc inc' ->
  agree (parseItem th ph inc st i c) (parseItem th ph inc' st i c).
Proof.
  intros inc inc' st i c H. destruct i; try apply agree_refl. cbn [parseItem].
  apply (agree_bind _ _ (fun st' => (set_files st' (firstn 1 (ps_files st')), SOk))
           (fun st' => (set_files st' (firstn 1 (ps_files st')), SOk)) (fun r => r) (fun r => r)); auto.
  intro. apply agree_refl.
Qed.

Lemma parseItems_agree : forall inc inc', inc_agree inc inc' -> forall items e st,
  agree (parseItems th ph inc st items e) (parseItems th ph inc' st items e).
Proof.
  intros inc inc' H. induction items as [|[i c] items IH]; intros e st; cbn [parseItems].
  - apply agree_refl.
  - apply (agree_bind _ _ (fun st' => parseItems th ph inc st' items e)
             (fun st' => parseItems th ph inc' st' items e) (fun r => r) (fun r => r)); auto.
    now apply parseItem_agree.
Qed.

(** Nothing is open once a transaction was closed. *)
Lemma endTransaction_twice : forall st st', endTransaction th ph st = (st', SOk) ->
  endTransaction th ph st' = (st', SOk).
Proof.
  intros st st'. unfold endTransaction. destruct (b_type (ps_b st)) eqn:T.
  - destruct (b_txn (ps_b st)) as [t|] eqn:X.
    + destruct (endNormalTransaction (ps_b st) t) as [t' [e|]]; [discriminate|].
      destruct (match th with Some h => _ | None => _ end) as [s' []]; intro H; try discriminate.
      injection H as <-. reflexivity.
    + intro H. injection H as <-. now rewrite T, X.
  - destruct (b_ptxn (ps_b st)) as [t|] eqn:X.
    + destruct (endNormalTransaction (ps_b st) (pt_txn t)) as [t' [e|]]; [discriminate|].
      destruct (match ph with Some h => _ | None => _ end) as [s' []]; intro H; try discriminate.
      injection H as <-. reflexivity.
    + intro H. injection H as <-. now rewrite T, X.
Qed.

Lemma blank_header : forall inc i c st, i = dateItem \/ i = periodItem ->
  bindr (parseItem th ph inc st emptyLineItem []) (fun st' => parseItem th ph inc st' i c) (fun r => r)
  = parseItem th ph inc st i c.
Proof.
  intros inc i c st [->| ->]; cbn [parseItem];
    destruct (endTransaction th ph st) as [st1 r1] eqn:E; destruct r1; try reflexivity;
    cbn [bindr]; rewrite (endTransaction_twice _ _ E); reflexivity.
Qed.

Lemma lexLines_agree : forall inc inc' hint bad ls ls', inc_agree inc inc' -> similar ls ls' ->
  forall n n' st, agree (lexLines U th ph inc hint bad n ls st) (lexLines U th ph inc' hint bad n' ls' st).
Proof.
  intros inc inc' hint bad ls ls' HI HS.
  assert (forall h n n' r r', up_to_lines r r' ->
            up_to_lines (wrap_err (EAt h n) r) (wrap_err (EAt h n') r')) as W.
  { intros. apply wrap_agree; [assumption|]. cbn. congruence. }
  induction HS as [|l ls ls' _ IH|l ls ls' C _ IH|l ls ls' H _ IH]; intros n n' st.
  - cbn [lexLines]. destruct bad; [apply agree_refl|]. now apply parseItem_agree.
  - destruct l as [l|]; cbn [lexLines]; [|apply agree_refl].
    destruct (lexLine U hint l) as [items e].
    apply (agree_bind _ _ (lexLines U th ph inc hint bad (n + 1) ls)
             (lexLines U th ph inc' hint bad (n' + 1) ls') (wrap_err (EAt hint n)) (wrap_err (EAt hint n')));
      auto. now apply parseItems_agree.
  - cbn [lexLines]. rewrite (C hint). cbn [parseItems]. apply IH.
  - cbn [lexLines]. replace (lexLine U hint []) with ([(emptyLineItem, @nil Z)], @None err) by reflexivity.
    destruct (header_lexes hint l H) as (i & c & items & e & E & T). rewrite E. cbn [parseItems].
    rewrite <- (blank_header inc i c st T).
    pose proof (parseItem_agree inc inc' st emptyLineItem [] HI) as A.
    destruct (parseItem th ph inc st emptyLineItem []) as [st1 r1].
    destruct (parseItem th ph inc' st emptyLineItem []) as [st2 r2].
    destruct A as [A1 A2]. cbn [fst snd] in A1, A2. subst st2.
    destruct r1; destruct r2; cbn in A2; try discriminate; cbn [bindr];
      try (split; [reflexivity|]; cbn; congruence).
    cbn [parseItems].
    apply (agree_bind _ _ (lexLines U th ph inc hint bad (n + 1) ls)
             (lexLines U th ph inc' hint bad (n' + 1 + 1) ls')
             (wrap_err (EAt hint n)) (wrap_err (EAt hint (n' + 1)))); auto.
    apply (agree_bind _ _ (fun st' => parseItems th ph inc st' items e)
             (fun st' => parseItems th ph inc' st' items e) (fun r => r) (fun r => r)); auto.
    + now apply parseItem_agree.
    + intro. now apply parseItems_agree.
Qed.

Definition similar_files (fs fs' : str -> option file) : Prop :=
  forall p, match fs p, fs' p with
            | None, None => True
            | Some f, Some f' => f_bad f = f_bad f' /\
                similar (file_lines (f_bytes f)) (file_lines (f_bytes f'))
            | _, _ => False
            end.

Lemma run_file_agree : forall fs fs', similar_files fs fs' -> forall depth hint f f' st,
  f_bad f = f_bad f' -> similar (file_lines (f_bytes f)) (file_lines (f_bytes f')) ->
  agree (run_file U fs th ph depth hint f st) (run_file U fs' th ph depth hint f' st).
Proof.
  intros fs fs' HF. induction depth as [|d IH]; intros hint f f' st B L; cbn [run_file];
    rewrite B; apply lexLines_agree; try assumption; intros p st'; [apply agree_refl|].
  specialize (HF p). destruct (fs p) as [g|], (fs' p) as [g'|]; try contradiction; [|apply agree_refl].
  destruct HF as [HB HL]. specialize (IH p g g' st' HB HL).
  destruct (run_file U fs th ph d p g st') as [s1 r1]. destruct (run_file U fs' th ph d p g' st') as [s2 r2].
  destruct IH as [E1 E2]. cbn [fst snd] in *. split; [exact E1|].
  apply wrap_agree; [exact E2|]. cbn. congruence.
Qed.

Lemma parse_agree : forall fs fs' depth hint f f' s, similar_files fs fs' ->
  f_bad f = f_bad f' -> similar (file_lines (f_bytes f)) (file_lines (f_bytes f')) ->
  fst (parse U fs th ph depth hint f s) = fst (parse U fs' th ph depth hint f' s) /\
  up_to_lines (snd (parse U fs th ph depth hint f s)) (snd (parse U fs' th ph depth hint f' s)).
Proof.
  intros fs fs' depth hint f f' s HF B L. unfold parse.
  pose proof (run_file_agree fs fs' HF depth hint f f' (PS newBuilder [hint] s) B L) as A.
  destruct (run_file U fs th ph depth hint f _) as [s1 r1].
  destruct (run_file U fs' th ph depth hint f' _) as [s2 r2].
  destruct A as [E1 E2]. cbn [fst snd] in *. subst. split; [reflexivity|].
  apply wrap_agree; [exact E2|]. cbn. congruence.
Qed.

(** Files read as the same lines give the same run. *)
Lemma lexLines_ext : forall inc inc' hint bad ls, (forall p st, inc p st = inc' p st) -> forall n st,
  lexLines U th ph inc hint bad n ls st = lexLines U th ph inc' hint bad n ls st.
Proof.
  intros inc inc' hint bad ls H.
  assert (forall items e st, parseItems th ph inc st items e = parseItems th ph inc' st items e) as K.
  { induction items as [|[i c] items IH]; intros e st; cbn [parseItems]; [reflexivity|].
    assert (parseItem th ph inc st i c = parseItem th ph inc' st i c) as ->
      by (destruct i; cbn [parseItem]; rewrite ?H; reflexivity).
    destruct (parseItem th ph inc' st i c) as [st' []]; auto. }
  induction ls as [|[l|] ls IH]; intros n st; cbn [lexLines]; [destruct bad; reflexivity| |reflexivity].
  destruct (lexLine U hint l). rewrite K. destruct (parseItems th ph inc' st l0 o) as [st' []]; auto.
Qed.

Definition same_lines (fs fs' : str -> option file) : Prop :=
  forall p, match fs p, fs' p with
            | None, None => True
            | Some f, Some f' => f_bad f = f_bad f' /\ file_lines (f_bytes f) = file_lines (f_bytes f')
            | _, _ => False
            end.

Lemma run_file_ext : forall fs fs', same_lines fs fs' -> forall depth hint f f' st,
  f_bad f = f_bad f' -> file_lines (f_bytes f) = file_lines (f_bytes f') ->
  run_file U fs th ph depth hint f st = run_file U fs' th ph depth hint f' st.
Proof.
  intros fs fs' HF. induction depth as [|d IH]; intros hint f f' st B L; cbn [run_file]; rewrite B, L;
    apply lexLines_ext; [reflexivity|].
  intros p st'. specialize (HF p). destruct (fs p), (fs' p); try contradiction; [|reflexivity].
  destruct HF as [HB HL]. now rewrite (IH p f0 f1 st' HB HL).
Qed.

Lemma parse_ext : forall fs fs' depth hint f f' s, same_lines fs fs' ->
  f_bad f = f_bad f' -> file_lines (f_bytes f) = file_lines (f_bytes f') ->
  parse U fs th ph depth hint f s = parse U fs' th ph depth hint f' s.
Proof. intros. unfold parse. now rewrite (run_file_ext fs fs' H depth hint f f'). Qed.

End Handlers.
End Lines.

(** ** LF, CRLF and the final newline *)

(** The lines of a text, as separated by LF. *)
Lemma crlf_raw : forall s cur, Forall (fun l => last l 0 <> CR /\ Z.of_nat (length l) < 4095) (split LF (rev cur ++ s)) ->
  ~ In LF cur ->
  map read_line (raw_lines cur (to_crlf s)) = map read_line (raw_lines cur s).
Proof.
  induction s as [|c s IH]; intros cur F N; [reflexivity|].
  unfold to_crlf in *. cbn [flat_map]. unfold LF in *. cbn [raw_lines].
  destruct (Z.eqb_spec c 10) as [->|E].
  - cbn [app raw_lines]. change (CR =? newline) with false. change (10 =? newline) with true.
    cbn [map]. cbn iota.
    assert (~ In 10 (rev cur)) as N' by now rewrite <- in_rev.
    rewrite split_app_no_sep in F by assumption. cbn [split] in F. rewrite Z.eqb_refl in F.
    inversion F as [|? ? [F1 F2] F3]; subst. rewrite app_nil_r in F1, F2.
    f_equal.
    + cbn [rev]. unfold read_line. rewrite app_length. cbn [length]. unfold bufferSize.
      destruct (Z.leb_spec 4096 (Z.of_nat (length (rev cur) + 1))); [lia|].
      destruct (Z.leb_spec 4096 (Z.of_nat (length (rev cur)))); [lia|].
      rewrite chop_cr_cr, chop_cr_id by assumption. reflexivity.
    + apply IH; [|auto]. cbn [rev app]. assumption.
  - cbn [app raw_lines]. change newline with 10. destruct (Z.eqb_spec c 10); [congruence|].
    apply IH.
    + cbn [rev]. rewrite <- app_assoc. exact F.
    + intros [H|H]; [congruence|auto].
Qed.

Lemma crlf_lines : forall s,
  Forall (fun l => last l 0 <> CR /\ Z.of_nat (length l) < 4095) (split LF s) ->
  file_lines (to_crlf s) = file_lines s.
Proof. intros s F. apply (crlf_raw s []); [exact F|auto]. Qed.

Lemma last_line : forall s, exists before w, s = before ++ w /\ line_start before /\ ~ In LF w.
Proof.
  induction s as [|c s IH].
  - exists [], []. repeat split; [now left|auto].
  - destruct IH as (before & w & -> & [->|[b ->]] & N).
    + destruct (Z.eq_dec c LF) as [->|E].
      * exists [LF], w. repeat split; [right; now exists []|assumption].
      * exists [], (c :: w). repeat split; [now left|]. intros [H|H]; [congruence|auto].
    + exists (c :: b ++ [LF]), w. repeat split; [right; now exists (c :: b)|assumption].
Qed.

Lemma last_app_nonempty : forall A (a b : list A) d, b <> [] -> last (a ++ b) d = last b d.
Proof.
  intros A a b d H. induction a as [|x a IH]; [reflexivity|]. cbn [app].
  destruct (a ++ b) eqn:E; [destruct a, b; cbn in E; try discriminate; congruence|].
  change (last (x :: a0 :: l) d) with (last (a0 :: l) d). exact IH.
Qed.

Lemma final_newline_lines : forall s, s <> [] -> last s 0 <> LF -> last s 0 <> CR ->
  file_lines (s ++ [LF]) = file_lines s.
Proof.
  intros s NE NL NC. destruct (last_line s) as (before & w & -> & ST & N).
  assert (w <> []) as W.
  { intros ->. rewrite app_nil_r in *. destruct ST as [->|[b ->]]; [congruence|].
    rewrite last_last in NL. congruence. }
  rewrite last_app_nonempty in NC by assumption.
  rewrite <- app_assoc, (file_lines_start before (w ++ [LF])), (file_lines_start before w) by assumption.
  f_equal. unfold file_lines.
  rewrite (raw_lines_line w []) by assumption. rewrite (raw_lines_rest w N W). cbn [map rev app]. unfold read_line.
  rewrite chop_cr_id by assumption. reflexivity.
Qed.

Lemma comment_inserted_similar : forall U a b, line_inserted comment_line a b ->
  similar U (file_lines a) (file_lines b).
Proof.
  intros U a b H. destruct H as [before c after S N L (x & y & -> & C)].
  rewrite file_lines_inserted, file_lines_start by assumption.
  apply similar_app; [apply similar_refl|].
  destruct (chop_cr_cons x y) as [c' ->]; [destruct C; subst; discriminate|].
  apply sim_skip; [intro hint; now apply comment_lexes|apply similar_refl].
Qed.

Lemma digit_header : forall U d c, 48 <= d <= 57 -> header U (d :: c).
Proof.
  intros U d c H. unfold header. rewrite lexLine_spec, decode_cons by discriminate.
  assert (fst (decode_rune (d :: c)) = d) as ->.
  { unfold decode_rune. destr_if; [reflexivity|bounds; lia]. }
  unfold lex_runes. unfold isCommentIndicator, isNumber.
  replace (d <? 0) with false by (symmetry; apply Z.ltb_ge; lia).
  replace (d <=? 255) with true by (symmetry; apply Z.leb_le; lia).
  replace (between 48 d 57) with true by (symmetry; apply between_iff; lia).
  cbn [orb].
  assert (forall k, k < 48 \/ 57 < k -> (d =? k) = false) as NE by (intros; apply Z.eqb_neq; lia).
  unfold c_semi, c_hash, c_i, c_tilde. rewrite !NE by lia. cbn [orb].
  unfold header_line. destruct (until_space _) as [dt rs1].
  destruct (match drop_space rs1 with [] => _ | _ => _ end) as [state rs3].
  destruct (to_tab [] rs3) as [payee rs4]. cbn [app]. repeat eexists. now left.
Qed.

Lemma tilde_header : forall U b c, b = 32 \/ b = 9 -> header U (126 :: b :: c).
Proof.
  intros U b c H. unfold header. rewrite lexLine_spec, decode_ascii_cons by (unfold ascii; lia).
  rewrite decode_ascii_cons by (unfold ascii; lia). unfold lex_runes.
  replace (isCommentIndicator 126) with false by reflexivity.
  replace (126 =? c_i) with false by reflexivity. replace (126 =? c_tilde) with true by reflexivity.
  unfold period_line. cbn [space_width].
  assert (forall rs, 0 <= space_width rs) as P.
  { induction rs as [|r rs IH]; cbn [space_width]; [lia|]. unfold TabWidth.
    destruct (isSpace r), (r =? c_tab), (r =? c_space); lia. }
  specialize (P (decode c)).
  assert ((if isSpace b then (if b =? c_tab then TabWidth else if b =? c_space then 1 else 0) +
             space_width (decode c) else 0) =? 0 = false) as ->.
  { apply Z.eqb_neq. destruct H; subst; cbn -[Z.add space_width TabWidth]; unfold TabWidth; lia. }
  repeat eexists. now right.
Qed.

Lemma header_text_lines : forall U s, header_text s ->
  exists l ls, file_lines s = Line l :: ls /\ header U l.
Proof.
  intros U s (l & T & N & L & H).
  assert (header U l /\ header U (chop_cr l) /\ l <> []) as (H1 & H2 & NE).
  { destruct H as [(d & c & -> & D)|(b & c & -> & B)].
    - destruct (chop_cr_cons d c) as [c' ->]; [lia|]. repeat split; try now apply digit_header. discriminate.
    - split; [now apply tilde_header|]. split; [|discriminate].
      assert (chop_cr (126 :: b :: c) = 126 :: chop_cr (b :: c)) as ->.
      { unfold chop_cr. cbn [rev]. destruct (rev c) as [|x r]; cbn [app].
        - destruct B; subst; reflexivity.
        - destruct x as [|p|p]; try reflexivity.
          do 4 (destruct p; try reflexivity). cbn. rewrite !rev_app_distr. reflexivity. }
      destruct (chop_cr_cons b c) as [c' ->]; [lia|]. now apply tilde_header. }
  destruct T as [->|[rest ->]].
  - exists l, []. split; [|assumption]. unfold file_lines. rewrite (raw_lines_rest l N NE). cbn.
    unfold bufferSize. destruct (Z.leb_spec 4096 (Z.of_nat (length l))); [lia|reflexivity].
  - exists (chop_cr l), (file_lines rest). split; [|assumption].
    apply (file_lines_inserted [] l rest); [now left|assumption|lia].
Qed.

Lemma blank_inserted_similar : forall U a b, line_inserted blank_before_header a b ->
  similar U (file_lines a) (file_lines b).
Proof.
  intros U a b H. destruct H as [before c after S N L [-> H]].
  rewrite file_lines_inserted, file_lines_start by assumption.
  apply similar_app; [apply similar_refl|]. rewrite chop_cr_nil.
  destruct (header_text_lines U after H) as (l & ls & -> & HL).
  apply sim_blank; [assumption|apply similar_refl].
Qed.
