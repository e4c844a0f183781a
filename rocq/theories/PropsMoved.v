(** * C111: a journal may be moved with the files it includes *)
From Verif Require Import Base BaseFacts Utf8 Utf8Facts Unicode GoTime Strconv Display Journal Lexer LexSpec LexerFacts Parser ParserFacts FlatSpec FlatFacts InputFacts
  Account Budget Reporting Cmd CmdSpec CmdFacts Main MainSpec ProgramFacts PropsMain TextSpec JournalText Sample PropsCmd PropsInput.

(** A directory: no name, or one that ends in a slash; in UTF-8. *)
Definition directory (d : str) : Prop := (d = [] \/ last d 0 = 47) /\ valid_utf8 d.

(** The same machine with other files and another LEDGER_FILE; the same command
    line with another journal. *)
Definition machine (E : env) (fs : str -> option file) (ledger : option str) : env :=
  Env (e_unicode E) fs (e_depth E) ledger (e_re_ok E) (e_re_match E) (e_year E) (e_tomorrow E) (e_local E)
    (e_order E) (e_tree_order E) (e_sort E) (e_now E).
Definition naming (O : opts) (f : str) : opts :=
  Opts f (o_begin O) (o_end O) (o_current O) (o_args O) (o_flatten O) (o_collapse O) (o_show_zero O).

(** Pieces of what is printed: fixed ones, the name of a file, and what the
    system says when a file cannot be opened or read. *)
Inductive piece := Fixed (s : str) | Named (x : str) | NotOpened (x : str) | NotRead (x : str).
Definition piece_in (L : err -> str) (d : str) (p : piece) : str :=
  match p with
  | Fixed s => s
  | Named x => d ++ x
  | NotOpened x => L (EOpen (d ++ x))
  | NotRead x => L (ERead (d ++ x))
  end.

(** ** Names of files in errors *)
Fixpoint rename (d : str) (e : err) : err :=
  match e with
  | EAt h n e => EAt (d ++ h) n (rename d e)
  | EErrorAt e => EErrorAt (rename d e)
  | EOpen p => EOpen (d ++ p)
  | ERead p => ERead (d ++ p)
  | _ => e
  end.
Definition rename_st (d : str) (r : status) : status := match r with SErr e => SErr (rename d e) | _ => r end.
Fixpoint pieces (L : err -> str) (e : err) : list piece :=
  match e with
  | EAt h n e => [Named h; Fixed (lit ":" ++ itoa n ++ nl)] ++ pieces L e
  | EErrorAt e => Fixed (lit "error at ") :: pieces L e
  | EOpen p => [NotOpened p]
  | ERead p => [NotRead p]
  | _ => [Fixed (err_text L e)]
  end.
Lemma pieces_text : forall L d e, err_text L (rename d e) = concat (map (piece_in L d) (pieces L e)).
Proof.
  intros L d. induction e; cbn [rename pieces err_text map concat piece_in app]; rewrite ?app_nil_r; try reflexivity.
  - now rewrite IHe.
  - rewrite IHe. now rewrite <- !app_assoc.
Qed.

(** Errors that name no file. *)
Definition placeless (e : err) : Prop := forall d, rename d e = e.
Ltac pl := solve [intro; reflexivity].
Lemma built_placeless : forall b i c e, build b i c = PErr e -> placeless e.
Proof.
  assert (N : forall b i c e, buildNormalTransaction b i c = PErr e -> placeless e).
  { intros b i c e H. unfold buildNormalTransaction in H. destruct i; try discriminate;
      repeat match type of H with
      | context [match ?x with _ => _ end] => destruct x eqn:?; try discriminate
      end; try (injection H as <-; try pl).
    all: match goal with
      | H : parseDate _ = PErr _ |- _ => unfold parseDate in H
      | H : parseAmount _ = PErr _ |- _ => unfold parseAmount in H
      | _ => idtac end.
    all: repeat match goal with
      | H : context [match ?x with _ => _ end] |- _ => destruct x eqn:?; try discriminate
      end; try match goal with H : PErr _ = PErr _ |- _ => injection H as <- end; try pl. }
  intros b i c e. unfold build. destruct (b_type b).
  - destruct (buildNormalTransaction b i c) eqn:Q; intros [= <-]. eauto.
  - destruct (buildPeriodicTransaction b i c) eqn:Q; intros [= <-]. unfold buildPeriodicTransaction in Q. destruct (b_ptxn b); [|discriminate]. destruct i; try discriminate; eauto.
Qed.
Lemma ended_placeless : forall b t t' e, endNormalTransaction b t = (t', Some e) -> placeless e.
Proof.
  assert (A : forall t p t' e, t_addPosting t p = (t', Some e) -> placeless e).
  { intros t p t' e H. unfold t_addPosting in H. repeat match type of H with context [match ?x with _ => _ end] => destruct x eqn:?; try discriminate end; injection H as <- <-; pl. }
  intros b t t' e. unfold endNormalTransaction. destruct (match b_cur b with Some p => t_addPosting t p | None => (t, None) end) as [t1 [e1|]] eqn:Q.
  - intros [= <- <-]. destruct (b_cur b); [eauto|discriminate].
  - intro H. unfold t_close in H. repeat match type of H with context [match ?x with _ => _ end] => destruct x eqn:?; try discriminate end; injection H as <- <-; pl.
Qed.

Lemma dir_moved : forall d x, (d = [] \/ last d 0 = 47) -> dir_of (d ++ x) = d ++ dir_of x.
Proof.
  intros d x D. destruct (in_dec Z.eq_dec 47 x) as [I|N].
  - clear D. unfold dir_of. match goal with |- match ?f _ with _ => _ end = _ => set (upto := f) end.
    assert (S : forall y, In 47 y -> exists z, upto y = Some z).
    { induction y as [|c y IH]; [intros []|]. intros [->|Iy]; cbn [upto]; fold upto.
      - destruct (upto y); eauto. cbn. eauto.
      - destruct (IH Iy) as [z ->]. eauto. }
    destruct (S x I) as [z Z]. rewrite Z. assert (A : upto (d ++ x) = Some (d ++ z)).
    { clear - Z. induction d as [|c d IH]; [exact Z|]. change (upto ((c :: d) ++ x)) with (match upto (d ++ x) with Some d0 => Some (c :: d0) | None => if c =? 47 then Some [c] else None end).
      now rewrite IH. }
    now rewrite A.
  - rewrite dir_of_app by assumption. rewrite <- (app_nil_l x) at 1. rewrite (dir_of_app [] x) by auto. now rewrite app_nil_r.
Qed.

Section Lex.
Variable U : unicode.
Lemma lex_moved : forall d h l, directory d ->
  (exists c, lexLine U h l = ([(includeItem, c)], None) /\ lexLine U (d ++ h) l = ([(includeItem, decode d ++ c)], None)) \/
  (lexLine U (d ++ h) l = lexLine U h l /\ Forall (fun x => fst x <> includeItem) (fst (lexLine U h l)) /\
   forall e, snd (lexLine U h l) = Some e -> placeless e).
Proof.
  intros d h l [D V]. rewrite !lexLine_spec. unfold lex_runes.
  destruct (decode l) as [|r rs]; [right; split; [reflexivity|split; [solve_f|discriminate]]|].
  destruct (isCommentIndicator r); [right; split; [reflexivity|split; [constructor|discriminate]]|].
  destruct (r =? c_i).
  { unfold include_line. destruct (until_space (r :: rs)) as [d0 rs1].
    destruct (negb (str_eqb d0 (lit "include"))); [right; split; [reflexivity|split; [constructor|intros e [= <-]; pl]]|].
    destruct (space_width rs1 =? 0); [right; split; [reflexivity|split; [constructor|intros e [= <-]; pl]]|].
    destruct (fst (to_tab [] (drop_space rs1))); [right; split; [reflexivity|split; [constructor|intros e [= <-]; pl]]|].
    left. eexists. split; [reflexivity|]. now rewrite dir_moved, decode_app_valid, <- app_assoc by assumption. }
  right. split; [reflexivity|].
  destruct (r =? c_tilde).
  { unfold period_line. destruct (space_width rs =? 0); (split; [solve_f|]); [intros e [= <-]; pl|discriminate]. }
  destruct (isNumber U r).
  { unfold header_line. destruct (until_space (r :: rs)) as [d0 rs1].
    destruct (match drop_space rs1 with
              | [] => ([], [])
              | r0 :: rs' => if (r0 =? c_bang) || (r0 =? c_star) then ([(stateItem, [r0])], drop_space rs')
                             else ([], drop_space rs1) end) as [state rs3] eqn:E.
    assert (Forall (fun x => fst x <> includeItem) state).
    { destruct (drop_space rs1); [injection E as <- <-; constructor|].
      destruct ((z =? c_bang) || (z =? c_star)); injection E as <- <-; solve_f. }
    destruct (to_tab [] rs3) as [payee rs4]. cbn [fst snd]. split; [|discriminate].
    repeat (apply Forall_app; split); try (solve_f); try assumption.
    destruct (trimSpaceStart rs4); solve_f. }
  destruct (_ || _); [|split; [constructor|intros e [= <-]; pl]].
  unfold posting_line. destruct (drop_space rs); [split; [constructor|try discriminate; intros e [= <-]; pl]|].
  destruct (isCommentIndicator z); [split; [solve_f|discriminate]|].
  destruct (isLetter U z); [|split; [constructor|try discriminate; intros e [= <-]; pl]].
  destruct (account_name [] false (z :: l0)) as [account rs1].
  destruct rs1; [split; [solve_f|try discriminate; intros e [= <-]; pl]|].
  destruct (commodity_name U (drop_space (z0 :: rs1))) as [commodity rs2].
  split; [solve_f|try discriminate; intros e [= <-]; pl].
Qed.
End Lex.

(** ** Two runs of the parser, one of them elsewhere *)
Section Moved.
Variable U : unicode.
Variables fs fs' : str -> option file.
Variable S : Type.
Variables th th' : option (S -> transaction -> str -> S * status).
Variables ph ph' : option (S -> ptransaction -> str -> S * status).
Variable d : str.
Hypothesis Dir : directory d.
Hypothesis same : forall x, fs' (d ++ x) = fs x.
Variable R : S -> S -> Prop.
Definition goes_on (A B : S * status) : Prop := snd B = snd A /\ rename_st d (snd A) = snd A /\ R (fst A) (fst B).
Hypothesis R_th : forall s s' t x, R s s' ->
  goes_on (match th with Some f => f s t x | None => (s, SOk) end) (match th' with Some f => f s' t (d ++ x) | None => (s', SOk) end).
Hypothesis R_ph : forall s s' t x, R s s' ->
  goes_on (match ph with Some f => f s t x | None => (s, SOk) end) (match ph' with Some f => f s' t (d ++ x) | None => (s', SOk) end).

Definition alike (a b : pstate S) : Prop := ps_b b = ps_b a /\ ps_files a <> [] /\ ps_files b = @map str str (@app Z d) (ps_files a) /\ R (ps_s a) (ps_s b).
Definition ends_alike (A B : pstate S * status) : Prop := snd B = rename_st d (snd A) /\ alike (fst A) (fst B).

Lemma alike_ret : forall a b r, alike a b -> rename_st d r = r -> ends_alike (a, r) (b, r).
Proof. intros a b r H Q. split; [symmetry; exact Q|exact H]. Qed.
Lemma alike_bind : forall A B kA kB, ends_alike A B -> (forall a b, alike a b -> ends_alike (kA a) (kB b)) ->
  ends_alike (let '(st, r) := A in match r with SOk => kA st | _ => (st, r) end)
         (let '(st, r) := B in match r with SOk => kB st | _ => (st, r) end).
Proof. intros [a ra] [b rb] kA kB [Q H] K. cbn [fst snd] in *. subst rb. destruct ra; cbn [rename_st]; try (split; [reflexivity|exact H]). now apply K. Qed.
Lemma alike_wrap : forall A B f f', ends_alike A B -> (forall e, rename d (f e) = f' (rename d e)) ->
  ends_alike (let '(st, r) := A in (st, wrap_err f r)) (let '(st, r) := B in (st, wrap_err f' r)).
Proof. intros [a ra] [b rb] f f' [Q H] K. cbn [fst snd] in *. subst rb. split; [|exact H]. cbn. destruct ra; cbn; try reflexivity. now rewrite K. Qed.

Lemma last_moved : forall l : list str, l <> [] -> @last str (@map str str (@app Z d) l) [] = d ++ @last str l [].
Proof. induction l as [|x [|y l] IH]; intro N; [congruence|reflexivity|]. change (@last str (@map str str (@app Z d) (y :: l)) [] = d ++ @last str (y :: l) []). now apply IH. Qed.
Lemma end_alike : forall a b, alike a b -> ends_alike (endTransaction th ph a) (endTransaction th' ph' b).
Proof.
  intros [ba fa sa] [bb fb sb] H. pose proof H as (X & N & Y & Z). cbn in X, N, Y, Z. subst bb fb. unfold endTransaction. cbn [ps_b ps_files ps_s].
  rewrite (last_moved fa N). destruct (b_type ba).
  - destruct (b_txn ba) as [t|]; [|now apply alike_ret].
    destruct (endNormalTransaction ba t) as [t' [e|]] eqn:En; [apply alike_ret; [exact H|cbn; now rewrite (ended_placeless _ _ _ _ En d)]|].
    pose proof (R_th sa sb t' (last fa []) Z) as K.
    destruct (match th with Some h => h sa t' (last fa []) | None => (sa, SOk) end) as [s1 r1].
    destruct (match th' with Some h => h sb t' (d ++ last fa []) | None => (sb, SOk) end) as [s2 r2].
    destruct K as (Q & W & W2). cbn [fst snd] in *. subst r2. destruct r1; (apply alike_ret; [split; [reflexivity|auto]|exact W]).
  - destruct (b_ptxn ba) as [t|]; [|now apply alike_ret].
    destruct (endNormalTransaction ba (pt_txn t)) as [t' [e|]] eqn:En; [apply alike_ret; [exact H|cbn; now rewrite (ended_placeless _ _ _ _ En d)]|].
    pose proof (R_ph sa sb (PTxn (pt_period t) t') (last fa []) Z) as K.
    destruct (match ph with Some h => h sa _ (last fa []) | None => (sa, SOk) end) as [s1 r1].
    destruct (match ph' with Some h => h sb _ (d ++ last fa []) | None => (sb, SOk) end) as [s2 r2].
    destruct K as (Q & W & W2). cbn [fst snd] in *. subst r2. destruct r1; (apply alike_ret; [split; [reflexivity|auto]|exact W]).
Qed.
Lemma build_alike : forall a b i c, alike a b -> ends_alike (build_in a i c) (build_in b i c).
Proof.
  intros [ba fa sa] [bb fb sb] i c H. pose proof H as (X & N & Y & Z). cbn in X, N, Y, Z. subst bb fb. unfold build_in. cbn [ps_b].
  destruct (build ba i c) eqn:Q; (apply alike_ret; [repeat split; assumption|try reflexivity]). cbn. now rewrite (built_placeless _ _ _ _ Q d).
Qed.
(** What is built first reports errors that name no file. *)
Lemma build_wrap : forall a b i c f, alike a b -> (forall e, rename d (f e) = f e) ->
  ends_alike (let '(st, r) := build_in a i c in (st, wrap_err f r)) (let '(st, r) := build_in b i c in (st, wrap_err f r)).
Proof.
  intros [ba fa sa] [bb fb sb] i c f H F. pose proof H as (X & N & Y & Z). cbn in X, N, Y, Z. subst bb fb. unfold build_in. cbn [ps_b].
  destruct (build ba i c) eqn:Q; (apply alike_ret; [repeat split; assumption|try reflexivity]). cbn. now rewrite F.
Qed.

Definition inc_alike (iA iB : @includer S) : Prop := forall x a b, alike a b -> ends_alike (iA x a) (iB (d ++ x) b).
Lemma item_alike : forall iA iB i c a b, i <> includeItem -> alike a b -> ends_alike (parseItem th ph iA a i c) (parseItem th' ph' iB b i c).
Proof.
  intros iA iB i c a b N P.
  assert (B : forall ty f, (forall e, rename d (f e) = f e) -> ends_alike
    (let '(st1, r) := endTransaction th ph a in
     match r with
     | SOk => let '(st2, r2) := build_in (set_b st1 (beginTransaction (ps_b st1) ty)) i c in (st2, wrap_err f r2)
     | _ => (st1, r)
     end)
    (let '(st1, r) := endTransaction th' ph' b in
     match r with
     | SOk => let '(st2, r2) := build_in (set_b st1 (beginTransaction (ps_b st1) ty)) i c in (st2, wrap_err f r2)
     | _ => (st1, r)
     end)).
  { intros ty f F.
    apply (alike_bind (endTransaction th ph a) (endTransaction th' ph' b)
      (fun st1 => let '(st2, r2) := build_in (set_b st1 (beginTransaction (ps_b st1) ty)) i c in (st2, wrap_err f r2))
      (fun st1 => let '(st2, r2) := build_in (set_b st1 (beginTransaction (ps_b st1) ty)) i c in (st2, wrap_err f r2))).
    - now apply end_alike.
    - intros a1 b1 (X & Y & Z). apply build_wrap; [|exact F]. split; [cbn; now rewrite X|]. auto. }
  destruct i; cbn [parseItem]; try (apply build_alike; assumption); try (apply end_alike; assumption); try (apply B; reflexivity). congruence.
Qed.
Lemma items_alike : forall iA iB items e, Forall (fun x => fst x <> includeItem) items -> (forall x, e = Some x -> placeless x) -> forall a b, alike a b ->
  ends_alike (parseItems th ph iA a items e) (parseItems th' ph' iB b items e).
Proof.
  intros iA iB items e F P. induction F as [|[i c] items N _ IH]; intros a b H; cbn [parseItems].
  - apply alike_ret; [exact H|]. destruct e as [e|]; [|reflexivity]. cbn. now rewrite (P e eq_refl d).
  - apply (alike_bind (parseItem th ph iA a i c) (parseItem th' ph' iB b i c)
      (fun st => parseItems th ph iA st items e) (fun st => parseItems th' ph' iB st items e)).
    + now apply item_alike.
    + intros. now apply IH.
Qed.
Lemma lines_alike : forall iA iB, inc_alike iA iB -> forall h bad ls n a b, alike a b ->
  ends_alike (lexLines U th ph iA h bad n ls a) (lexLines U th' ph' iB (d ++ h) bad n ls b).
Proof.
  intros iA iB I h bad. induction ls as [|[l|] ls IH]; intros n a b P; cbn [lexLines].
  - destruct bad; [split; [reflexivity|exact P]|now apply item_alike].
  - assert (K : ends_alike (let '(items, e) := lexLine U h l in parseItems th ph iA a items e)
                           (let '(items, e) := lexLine U (d ++ h) l in parseItems th' ph' iB b items e)).
    { destruct (lex_moved U d h l Dir) as [(c & -> & ->)|(-> & F & Pl)].
      - cbn [parseItems parseItem]. rewrite encode_app, (encode_decode d (proj2 Dir)).
        assert (K : ends_alike (iA (encode c) (set_files a (ps_files a ++ [encode c]))) (iB (d ++ encode c) (set_files b (ps_files b ++ [d ++ encode c])))).
        { apply I. destruct P as (X & N & Y & Z). split; [exact X|]. split; [cbn; now destruct (ps_files a)|]. split; [cbn; rewrite Y, map_app; reflexivity|exact Z]. }
        destruct (iA _ _) as [a1 r1]. destruct (iB _ _) as [b1 r2]. destruct K as [Q (X & N & Y & Z)]. cbn [fst snd] in *. subst r2.
        destruct r1; cbn [rename_st]; try (split; [reflexivity|split; [exact X|split; [exact N|split; [exact Y|exact Z]]]]).
        split; [reflexivity|]. split; [exact X|]. cbn. rewrite Y. destruct (ps_files a1); [congruence|]. split; [discriminate|]. split; [reflexivity|exact Z].
      - destruct (lexLine U h l) as [items e]. now apply items_alike. }
    destruct (lexLine U h l) as [items e]. destruct (lexLine U (d ++ h) l) as [items' e'].
    destruct (parseItems th ph iA a items e) as [a1 ra]. destruct (parseItems th' ph' iB b items' e') as [b1 rb].
    destruct K as [Q H]. cbn [fst snd] in *. subst rb. destruct ra; cbn [rename_st]; try (split; [reflexivity|exact H]). now apply IH.
  - now apply alike_ret.
Qed.
Lemma file_alike : forall depth h f a b, alike a b -> ends_alike (run_file U fs th ph depth h f a) (run_file U fs' th' ph' depth (d ++ h) f b).
Proof.
  induction depth as [|n IH]; intros h f a b P; cbn [run_file]; apply lines_alike; auto; intros x a1 b1 P1.
  - now apply alike_ret.
  - rewrite same. destruct (fs x); [|split; [reflexivity|exact P1]]. apply alike_wrap; [now apply IH|reflexivity].
Qed.
Lemma parse_alike : forall depth h f s s', R s s' ->
  let A := parse U fs th ph depth h f s in let B := parse U fs' th' ph' depth (d ++ h) f s' in
  snd B = rename_st d (snd A) /\ R (fst A) (fst B).
Proof.
  intros depth h f s s' H. cbn zeta. unfold parse.
  assert (P : alike (PS newBuilder [h] s) (PS newBuilder [d ++ h] s')) by (split; [reflexivity|]; split; [discriminate|]; split; [reflexivity|exact H]).
  pose proof (file_alike depth h f _ _ P) as K. destruct (run_file U fs th ph depth h f _) as [a ra]. destruct (run_file U fs' th' ph' depth (d ++ h) f _) as [b rb].
  destruct K as [Q (X & N & Y & Z)]. cbn [fst snd] in *. subst rb. split; [now destruct ra|exact Z].
Qed.
End Moved.

(** ** Commands *)
Section Commands.
Variable E : env.
Variable O : opts.
Variable d : str.

Definition alike_by {D} (K : D -> D -> Prop) (a b : hstate D) : Prop := h_n b = h_n a /\ h_out b = h_out a /\ K (h_data a) (h_data b).

Lemma smart_placeless : forall y s e, parseSmartDate y s = PErr e -> placeless e.
Proof.
  intros y s e H. unfold parseSmartDate, parseYear, of_time in H.
  repeat match type of H with context [match ?x with _ => _ end] => destruct x eqn:?; try discriminate end; injection H as <-; pl.
Qed.
Lemma range_placeless : forall n t e, withinDateRange E O n t = PErr e -> placeless e.
Proof.
  assert (F : forall n f e, flag_instant E O n f = PErr e -> placeless e).
  { intros n f e. unfold flag_instant. destruct (_ && _); [|discriminate]. destruct (parseSmartDate _ f) eqn:Q; intros [= <-]. now apply smart_placeless in Q. }
  intros n t e. unfold withinDateRange. destruct (flag_instant E O (2 * n) (o_begin O)) eqn:Q; [|intros [= <-]; eauto|discriminate].
  destruct (flag_instant E O (2 * n + 1) (o_end O)) eqn:Q2; [discriminate|intros [= <-]; eauto|discriminate].
Qed.
Lemma checked_alike : forall D (K : D -> D -> Prop) fl k,
  (forall s s' n t ps x, alike_by K s s' -> goes_on _ d (alike_by K) (k s n t ps x) (k s' n t ps (d ++ x))) ->
  forall s s' t x, alike_by K s s' -> goes_on _ d (alike_by K) (checked E O fl k s t x) (checked E O fl k s' t (d ++ x)).
Proof.
  intros D K fl k H s s' t x (N & Q & W). unfold checked. rewrite N.
  assert (A : alike_by K (HS (S (h_n s)) (h_out s) (h_data s)) (HS (S (h_n s)) (h_out s') (h_data s'))) by (split; [reflexivity|]; split; [exact Q|exact W]).
  destruct (checkAgainstFilters E O fl (h_n s) t) as [[m ps]|e|] eqn:C.
  - destruct (negb m && is_nil ps); [split; [reflexivity|]; split; [reflexivity|exact A]|now apply H].
  - split; [reflexivity|]. split; [|exact A]. cbn. unfold checkAgainstFilters in C.
    destruct (withinDateRange E O (h_n s) t) as [[]|e'|] eqn:Wd; try discriminate; [destruct fl; [discriminate|]; destruct (match_filters _ _ _ _); discriminate|].
    injection C as <-. now rewrite (range_placeless _ _ _ Wd d).
  - split; [reflexivity|]. split; [reflexivity|exact A].
Qed.
Lemma date_checked_alike : forall D (K : D -> D -> Prop) k,
  (forall s s' t x, alike_by K s s' -> goes_on _ d (alike_by K) (k s t x) (k s' t (d ++ x))) ->
  forall s s' t x, alike_by K s s' -> goes_on _ d (alike_by K) (date_checked E O k s t x) (date_checked E O k s' t (d ++ x)).
Proof.
  intros D K k H s s' t x (N & Q & W). unfold date_checked. rewrite N.
  assert (A : alike_by K (HS (S (h_n s)) (h_out s) (h_data s)) (HS (S (h_n s)) (h_out s') (h_data s'))) by (split; [reflexivity|]; split; [exact Q|exact W]).
  destruct (withinDateRange E O (h_n s) t) as [w|e|] eqn:C.
  - destruct w; [now apply H|split; [reflexivity|]; split; [reflexivity|exact A]].
  - split; [reflexivity|]. split; [|exact A]. cbn. now rewrite (range_placeless _ _ _ C d).
  - split; [reflexivity|]. split; [reflexivity|exact A].
Qed.

(** Journals up to the files their transactions were read from. *)
Definition same_journal (j j' : journal) : Prop := j_root j' = j_root j.
Lemma postings_alike : forall ps j j', same_journal j j' ->
  let A := j_addPostings j ps in let B := j_addPostings j' ps in
  snd (fst B) = snd (fst A) /\ snd B = snd A /\ (snd A = SOk \/ snd A = SPanic) /\ same_journal (fst (fst A)) (fst (fst B)).
Proof.
  induction ps as [|p ps IH]; intros j j' H; cbn [j_addPostings].
  - split; [reflexivity|]. split; [reflexivity|]. split; [now left|exact H].
  - unfold j_addPosting. rewrite H. destruct (wireUpPosting (j_root j) p) as [[r out]|].
    + specialize (IH (Jrn (j_txns j) (j_ptxns j) (j_paths j) r) (Jrn (j_txns j') (j_ptxns j') (j_paths j') r) eq_refl).
      destruct (j_addPostings _ ps) as [[j1 o1] r1]. destruct (j_addPostings (Jrn (j_txns j') _ _ _) ps) as [[j2 o2] r2]. cbn [fst snd] in *.
      destruct IH as (-> & -> & IH). auto.
    + cbn. split; [reflexivity|]. split; [reflexivity|]. split; [now right|exact H].
Qed.
Lemma run_alike : forall ts x x' j j', same_journal j j' ->
  let A := j_addRun j ts x in let B := j_addRun j' ts x' in
  snd (fst B) = snd (fst A) /\ snd B = snd A /\ (snd A = SOk \/ snd A = SPanic) /\ same_journal (fst (fst A)) (fst (fst B)).
Proof.
  induction ts as [|t ts IH]; intros x x' j j' H; cbn [j_addRun].
  - split; [reflexivity|]. split; [reflexivity|]. split; [now left|exact H].
  - pose proof (postings_alike (t_postings t) (j_addTransaction j t x) (j_addTransaction j' t x') H) as P.
    destruct (j_addPostings (j_addTransaction j t x) (t_postings t)) as [[j1 o1] r1]. destruct (j_addPostings (j_addTransaction j' t x') (t_postings t)) as [[j2 o2] r2].
    cbn [fst snd] in P. destruct P as (-> & -> & C & P). destruct C as [->| ->].
    + specialize (IH x x' j1 j2 P). destruct (j_addRun j1 ts x) as [[j3 o3] r3]. destruct (j_addRun j2 ts x') as [[j4 o4] r4]. cbn [fst snd] in *.
      destruct IH as (-> & -> & IH). auto.
    + cbn. auto.
Qed.
Lemma calm_rename : forall r, r = SOk \/ r = SPanic -> rename_st d r = r.
Proof. intros r [->| ->]; reflexivity. Qed.
Lemma balance_alike : forall s s' n t ps x, alike_by same_journal s s' -> goes_on _ d (alike_by same_journal) (balance_handler s n t ps x) (balance_handler s' n t ps (d ++ x)).
Proof.
  intros s s' n t ps x (N & Q & W). unfold balance_handler.
  pose proof (postings_alike ps (j_addTransaction (h_data s) t x) (j_addTransaction (h_data s') t (d ++ x)) W) as P.
  destruct (j_addPostings _ ps) as [[j1 o1] r1]. destruct (j_addPostings (j_addTransaction (h_data s') _ _) ps) as [[j2 o2] r2]. cbn [fst snd] in P. destruct P as (-> & -> & C & P).
  split; [reflexivity|]. split; [now apply calm_rename|]. split; [exact N|]. split; [cbn; now rewrite Q|exact P].
Qed.
Lemma balance_ph_alike : forall s s' t x, alike_by same_journal s s' -> goes_on _ d (alike_by same_journal) (balance_ph s t x) (balance_ph s' t (d ++ x)).
Proof.
  intros s s' t x (N & Q & W). unfold balance_ph, j_addPeriodicTransaction. destruct (is_pnone _).
  - split; [reflexivity|]. split; [reflexivity|]. split; [exact N|]. split; [cbn; now rewrite Q|exact W].
  - destruct (pt_run t) as [ts out].
    pose proof (run_alike ts x (d ++ x) (Jrn (j_txns (h_data s)) (j_ptxns (h_data s) ++ [t]) (j_paths (h_data s)) (j_root (h_data s)))
      (Jrn (j_txns (h_data s')) (j_ptxns (h_data s') ++ [t]) (j_paths (h_data s')) (j_root (h_data s'))) W) as P.
    destruct (j_addRun _ ts x) as [[j1 o1] r1]. destruct (j_addRun _ ts (d ++ x)) as [[j2 o2] r2]. cbn [fst snd] in P. destruct P as (-> & -> & C & P).
    split; [reflexivity|]. split; [now apply calm_rename|]. split; [exact N|]. split; [cbn; now rewrite Q|exact P].
Qed.

(** Statistics: the files are those of the other directory. *)
Definition same_stats (s s' : stats) : Prop :=
  s' = Stats (s_first s) (s_last s) (s_count s) (s_accounts s) (s_payees s) (map (app d) (s_files s)) (s_income s) (s_expense s).
Lemma set_add_moved : forall x l, set_add (d ++ x) (map (app d) l) = map (app d) (set_add x l).
Proof.
  intros x l. unfold set_add. assert (existsb (str_eqb (d ++ x)) (map (app d) l) = existsb (str_eqb x) l) as ->.
  { induction l as [|y l IH]; [reflexivity|]. cbn. rewrite IH. f_equal. destruct (str_eqb x y) eqn:Q.
    - apply str_eqb_eq in Q. subst. now apply str_eqb_eq.
    - destruct (str_eqb (d ++ x) (d ++ y)) eqn:Q2; [|reflexivity]. apply str_eqb_eq, app_inv_head in Q2. subst. now rewrite str_eqb_refl in Q. }
  destruct (existsb (str_eqb x) l); [reflexivity|]. now rewrite map_app.
Qed.
Lemma stats_alike : forall s s' n t ps x, alike_by same_stats s s' -> goes_on _ d (alike_by same_stats) (stats_handler s n t ps x) (stats_handler s' n t ps (d ++ x)).
Proof.
  intros s s' n t ps x H. pose proof H as (N & Q & W). unfold stats_handler, stats_step. rewrite W. cbn [s_first s_last s_count s_accounts s_payees s_files s_income s_expense].
  destruct (fold_left (stats_posting (t_date t)) ps (Some (s_income (h_data s), s_expense (h_data s)))) as [[inc exp]|].
  - split; [reflexivity|]. split; [reflexivity|]. split; [exact N|]. split; [exact Q|]. unfold same_stats. cbn. now rewrite set_add_moved.
  - split; [reflexivity|]. split; [reflexivity|exact H].
Qed.
End Commands.

Section Runs.
Variable E : env.
Variable O : opts.
Variable x : str.
Variable G : str -> option file.
Variable d : str.
Variable fs' : str -> option file.
Variable ledger : option str.
Variable f : str.
Hypothesis Dir : directory d.
Hypothesis same : forall y, fs' (d ++ y) = G y.
Let E0 : env := machine E G (Some x).
Let O0 : opts := naming O [].
Let E1 : env := machine E fs' ledger.
Let O1 : opts := naming O f.
Hypothesis named : journal_path E1 O1 = Some (d ++ x).

Lemma parse_cmd_alike : forall D (K : D -> D -> Prop) th ph s,
  (forall s s' t y, alike_by K s s' -> goes_on _ d (alike_by K) (match th with Some h => h s t y | None => (s, SOk) end) (match th with Some h => h s' t (d ++ y) | None => (s', SOk) end)) ->
  (forall s s' t y, alike_by K s s' -> goes_on _ d (alike_by K) (match ph with Some h => h s t y | None => (s, SOk) end) (match ph with Some h => h s' t (d ++ y) | None => (s', SOk) end)) ->
  alike_by K s s ->
  let A := parse_cmd E0 O0 th ph s in let B := parse_cmd E1 O1 th ph s in
  snd B = rename_st d (snd A) /\ alike_by K (fst A) (fst B).
Proof.
  intros D K th ph s T P H. cbn zeta. unfold parse_cmd. unfold journal_path in named. rewrite named. cbn [E0 O0 machine naming o_file e_ledger_file e_fs e_unicode e_depth E1].
  rewrite same. destruct (G x) as [g|]; [|split; [reflexivity|exact H]].
  exact (parse_alike (e_unicode E) G fs' (hstate D) th th ph ph d Dir same (alike_by K) T P (e_depth E) x g s s H).
Qed.
Lemma finish_alike : forall D (K : D -> D -> Prop) (A B : hstate D * status) k k', snd B = rename_st d (snd A) /\ alike_by K (fst A) (fst B) ->
  (forall n a b, K a b -> fst (k' n b) = fst (k n a) /\ snd (k' n b) = rename_st d (snd (k n a))) ->
  r_out (finish B k') = r_out (finish A k) /\ r_status (finish B k') = rename_st d (r_status (finish A k)).
Proof.
  intros D K [a ra] [b rb] k k' [Q (N & Ho & W)] H. cbn [fst snd] in *. subst rb. unfold finish. destruct ra; cbn [rename_st]; try (split; [exact Ho|reflexivity]).
  rewrite N. specialize (H (h_n a) _ _ W). destruct (k (h_n a) (h_data a)) as [o s]. destruct (k' (h_n a) (h_data b)) as [o' s']. cbn in *. destruct H as [-> ->]. now rewrite Ho.
Qed.

Lemma eq_alike : forall D (s s' : hstate D), alike_by eq s s' -> s' = s.
Proof. intros D [n o a] [n' o' a'] (N & Q & W). cbn in *. now subst. Qed.
Lemma alike_refl : forall D (s : hstate D), alike_by eq s s.
Proof. intros. split; [reflexivity|]. split; reflexivity. Qed.
Lemma goes_on_same : forall D (A : hstate D * status), snd A = SOk \/ snd A = SPanic -> goes_on _ d (alike_by eq) A A.
Proof. intros D A C. split; [reflexivity|]. split; [now apply calm_rename|apply alike_refl]. Qed.
Lemma no_handler : forall D T (K : D -> D -> Prop) (s s' : hstate D) (t : T) (y : str), alike_by K s s' -> goes_on _ d (alike_by K) (s, SOk) (s', SOk).
Proof. intros D T K s s' t y H. split; [reflexivity|]. split; [reflexivity|exact H]. Qed.
Lemma b_postings_calm : forall pt dt ps b, snd (b_addPostings pt b dt ps) = SOk \/ snd (b_addPostings pt b dt ps) = SPanic.
Proof.
  intros pt dt. induction ps as [|p ps IH]; intro b; cbn [b_addPostings]; [now left|]. destruct (pt p) as [ty|]; [|apply IH].
  destruct (b_addPosting b dt p ty) as [[b1 out]|]; [|now right]. specialize (IH b1). destruct (b_addPostings pt b1 dt ps) as [[b2 o2] r]. exact IH.
Qed.

Lemma command_alike : forall c, c <> Statistics ->
  r_out (run_command E1 c O1) = r_out (run_command E0 c O0) /\ r_status (run_command E1 c O1) = rename_st d (r_status (run_command E0 c O0)).
Proof.
  intros c Ns. destruct c; unfold run_command; [| | | | |congruence|].
  all: unfold accounts_cmd, balance_cmd, budget_cmd, payees_cmd, print_cmd, version_cmd, with_filters; change (makeFilters E1 (o_args O1)) with (makeFilters E (o_args O)); change (makeFilters E0 (o_args O0)) with (makeFilters E (o_args O));
    destruct (makeFilters E (o_args O)) as [fl|e|]; try (split; reflexivity).
  - apply (finish_alike _ eq); [|intros n a b <-; split; reflexivity]. apply (parse_cmd_alike _ eq); [|intros; now apply (no_handler _ ptransaction)|apply alike_refl].
    apply date_checked_alike. intros s s' t y H. apply eq_alike in H. subst s'. apply goes_on_same. now left.
  - apply (finish_alike _ same_journal).
    + apply (parse_cmd_alike _ same_journal); [apply checked_alike, balance_alike|apply balance_ph_alike|split; [reflexivity|]; split; reflexivity].
    + intros n a b W. cbn. rewrite W. split; reflexivity.
  - apply (finish_alike _ eq); [|intros n a b <-; split; reflexivity].
    + apply (parse_cmd_alike _ eq); [| |apply alike_refl].
      * apply checked_alike. intros s s' n t ps y H. apply eq_alike in H. subst s'. apply goes_on_same. unfold budget_handler.
        pose proof (b_postings_calm budget_type (t_date t) ps (h_data s)) as C. destruct (b_addPostings _ _ _ _) as [[? ?] ?]. exact C.
      * intros s s' t y H. apply eq_alike in H. subst s'. apply goes_on_same. unfold budget_ph. destruct (pt_run t) as [ts out]. destruct (is_pnone _); [|now left].
        destruct ts as [|t0 ts]; [now right|]. pose proof (b_postings_calm (fun _ => Some EnvelopePosting) (t_date t0) (t_postings t0) (h_data s)) as C. destruct (b_addPostings _ _ _ _) as [[? ?] ?]. exact C.
  - apply (finish_alike _ eq); [|intros n a b <-; split; [reflexivity|]].
    + apply (parse_cmd_alike _ eq); [|intros; now apply (no_handler _ ptransaction)|apply alike_refl].
      apply date_checked_alike. intros s s' t y H. apply eq_alike in H. subst s'. apply goes_on_same. now left.
    + cbn [E0 E1 O0 O1 naming machine o_args e_order]. unfold payees_prepare. cbn [E0 E1 O0 O1 naming machine o_args e_order e_unicode e_re_ok e_re_match].
      destruct (o_args O); [reflexivity|]. destruct (find _ _); reflexivity.
  - apply (finish_alike _ eq); [|intros n a b <-; split; reflexivity]. apply (parse_cmd_alike _ eq); [|intros; now apply (no_handler _ ptransaction)|apply alike_refl].
    apply checked_alike. intros s s' n t ps y H. apply eq_alike in H. subst s'. apply goes_on_same. now left.
Qed.

(** What precedes and follows the names of the files in the statistics. *)
Definition before_files (s : stats) : str := lit "Transactions found in " ++ itoa (Z.of_nat (length (s_files s))) ++ lit " files:" ++ nl.
Definition file_line (p : str) : str := lit "  " ++ p ++ nl.
Definition after_files (n : nat) (s : stats) : str := concat (skipn (S (length (e_order E n _ (s_files s)))) (stats_report E n s)).
Lemma stats_parts : forall n s, s_count s =? 0 = false ->
  concat (stats_report E n s) = before_files s ++ concat (map file_line (e_order E n _ (s_files s))) ++ after_files n s.
Proof.
  intros n s C. unfold after_files, stats_report. rewrite C. cbn [app skipn concat]. rewrite concat_app. f_equal. f_equal.
  rewrite skipn_app, skipn_all2 by now rewrite map_length. rewrite map_length, Nat.sub_diag. reflexivity.
Qed.
Lemma after_moved : forall n s s', orders E -> same_stats d s s' -> s_count s =? 0 = false -> after_files n s' = after_files n s /\ before_files s' = before_files s /\
  exists l, Permutation l (s_files s) /\ e_order E n _ (s_files s') = map (app d) l.
Proof.
  intros n s s' Or -> C. split; [|split].
  - unfold after_files, stats_report. cbn [s_first s_last s_count s_accounts s_payees s_files s_income s_expense]. rewrite C. cbn [app skipn].
    assert (K : forall (g : str -> str) l r, skipn (length l) (map g l ++ r) = r).
    { intros g l r. rewrite skipn_app, skipn_all2 by now rewrite map_length. now rewrite map_length, Nat.sub_diag. }
    etransitivity; [|symmetry]; (etransitivity; [apply f_equal, K|reflexivity]).
  - unfold before_files. cbn. now rewrite map_length.
  - cbn. pose proof (proj1 Or n str (map (app d) (s_files s))) as P. apply Permutation_map_inv in P as (l & Q & P).
    exists l. split; [now apply Permutation_sym|exact Q].
Qed.
End Runs.

(** What the program prints: fixed text, the files counted, and the rest. *)
Definition printed (L : err -> str) (d : str) (out : str) (files : list str) (ps : list piece) : str :=
  out ++ concat (map (fun x => lit "  " ++ d ++ x ++ [10]) files) ++ concat (map (piece_in L d) ps).

Definition status_pieces (L : err -> str) (r : status) : list piece :=
  match r with SErr (EUsage _) => [] | SErr e => pieces L e ++ [Fixed nl] | _ => [] end.
Definition status_code (r : status) : option Z :=
  match r with SOk => Some 0 | SErr (EUsage _) => Some 1 | SErr _ => Some 0 | SPanic => Some 2 | SFatal => Some 1 | SDeep => None end.
Lemma result_pieces : forall L d out r, result_of L (Outcome out (rename_st d r)) = Result (concat out ++ concat (map (piece_in L d) (status_pieces L r))) (status_code r).
Proof.
  intros L d out r. unfold result_of. cbn [r_out r_status]. destruct r as [|e| | |]; cbn [rename_st status_pieces status_code map concat]; rewrite ?app_nil_r; try reflexivity.
  assert (K : concat (map (piece_in L d) (pieces L e ++ [Fixed nl])) = err_text L (rename d e) ++ nl).
  { rewrite pieces_text, map_app, concat_app. reflexivity. }
  destruct e; cbn [rename]; cbn [rename] in K; rewrite ?K; cbn [map concat]; rewrite ?app_nil_r; reflexivity.
Qed.

(** A command on a journal and the files it includes, wherever they stand: the
    same output and exit status, but for the names of files. *)
Theorem C111_moved : forall E L help_text library c O x G, orders E ->
  exists out files ps code, forall d fs ledger f argv, directory d -> (forall y, fs (d ++ y) = G y) ->
    asks argv c (naming O f) false -> journal_path (machine E fs ledger) (naming O f) = Some (d ++ x) ->
    exists files', Permutation files' files /\
      gledger (machine E fs ledger) L help_text library argv = Result (printed L d out files' ps) code.
Proof.
  intros E L help_text library c O x G Or.
  assert (G1 : forall fs ledger f argv, asks argv c (naming O f) false -> gledger (machine E fs ledger) L help_text library argv = result_of L (run_command (machine E fs ledger) c (naming O f))).
  { intros fs ledger f argv As. destruct (C79_flags_partial (machine E fs ledger) L help_text library argv c _ false As) as [Gl _]. rewrite (Gl eq_refl). destruct c; reflexivity. }
  assert (Gen : c <> Statistics -> exists out files ps code, forall d fs ledger f argv, directory d -> (forall y, fs (d ++ y) = G y) ->
    asks argv c (naming O f) false -> journal_path (machine E fs ledger) (naming O f) = Some (d ++ x) ->
    exists files', Permutation files' files /\
      gledger (machine E fs ledger) L help_text library argv = Result (printed L d out files' ps) code).
  { intro Ns. set (A := run_command (machine E G (Some x)) c (naming O [])).
    exists (concat (r_out A)), [], (status_pieces L (r_status A)), (status_code (r_status A)). intros d fs ledger f argv Dir Sm As J. exists []. split; [constructor|].
    rewrite (G1 fs ledger f argv As). destruct (command_alike E O x G d fs ledger f Dir Sm J c Ns) as [Qo Qs]. fold A in Qo, Qs.
    destruct (run_command (machine E fs ledger) c (naming O f)) as [o r]. cbn in Qo, Qs. subst o r. apply result_pieces. }
  destruct c; try (apply Gen; discriminate). clear Gen.
  destruct (makeFilters E (o_args O)) as [fl|e|] eqn:Mf.
  - set (A := stats_run (machine E G (Some x)) (naming O []) fl).
    assert (Al : forall d fs ledger f, directory d -> (forall y, fs (d ++ y) = G y) -> journal_path (machine E fs ledger) (naming O f) = Some (d ++ x) ->
      let B := stats_run (machine E fs ledger) (naming O f) fl in snd B = rename_st d (snd A) /\ alike_by (same_stats d) (fst A) (fst B)).
    { intros d fs ledger f Dir Sm J. apply (parse_cmd_alike E O x G d fs ledger f Dir Sm J _ (same_stats d)).
      - apply checked_alike, stats_alike.
      - intros; now apply (no_handler d _ ptransaction).
      - split; [reflexivity|]. split; reflexivity. }
    assert (Rn : forall fs ledger f argv, asks argv Statistics (naming O f) false -> gledger (machine E fs ledger) L help_text library argv =
      result_of L (finish (stats_run (machine E fs ledger) (naming O f) fl) (fun n s => (stats_report E n s, SOk)))).
    { intros fs ledger f argv As. rewrite (G1 fs ledger f argv As). unfold run_command, stats_cmd, with_filters.
      change (makeFilters (machine E fs ledger) (o_args (naming O f))) with (makeFilters E (o_args O)). rewrite Mf. reflexivity. }
    clear G1. destruct A as [[n o st] r] eqn:QA. destruct r as [|e| | |].
    + destruct (s_count st =? 0) eqn:C0.
      * exists (concat o ++ lit "No transactions matched arguments." ++ nl), [], [], (Some 0). intros d fs ledger f argv Dir Sm As J. exists []. split; [constructor|].
        rewrite (Rn fs ledger f argv As). destruct (Al d fs ledger f Dir Sm J) as [Qs (Hn & Ho & Hd)]. destruct (stats_run (machine E fs ledger) (naming O f) fl) as [[n' o' st'] r'].
        cbn in Qs, Hn, Ho, Hd. unfold same_stats in Hd. subst r' n' o' st'. unfold finish, stats_report, result_of, printed. cbn [h_n h_data h_out s_count]. rewrite C0. cbn. now rewrite concat_app, !app_nil_r.
      * exists (concat o ++ before_files st), (s_files st), [Fixed (after_files E n st)], (Some 0). intros d fs ledger f argv Dir Sm As J.
        rewrite (Rn fs ledger f argv As). destruct (Al d fs ledger f Dir Sm J) as [Qs (Hn & Ho & Hd)]. destruct (stats_run (machine E fs ledger) (naming O f) fl) as [[n' o' st'] r'].
        cbn in Qs, Hn, Ho, Hd. subst r' n' o'. destruct (after_moved E d n st st' Or Hd C0) as (Qa & Qb & l & Pl & Ql). exists l. split; [exact Pl|].
        unfold finish, result_of, printed. cbn [h_n h_data h_out r_out r_status]. rewrite concat_app, stats_parts by (unfold same_stats in Hd; rewrite Hd; exact C0).
        rewrite Qa, Qb, Ql, map_map. cbn [map concat piece_in]. rewrite app_nil_r, <- !app_assoc. do 4 f_equal.
        f_equal. apply map_ext. intro y. unfold file_line. now rewrite <- app_assoc.
    + exists (concat o), [], (status_pieces L (SErr e)), (status_code (SErr e)). intros d fs ledger f argv Dir Sm As J. exists []. split; [constructor|].
      rewrite (Rn fs ledger f argv As). destruct (Al d fs ledger f Dir Sm J) as [Qs (Hn & Ho & Hd)]. destruct (stats_run (machine E fs ledger) (naming O f) fl) as [[n' o' st'] r'].
      cbn in Qs, Hn, Ho, Hd. subst r' n' o'. exact (result_pieces L d o (SErr e)).
    + exists (concat o), [], [], (Some 2). intros d fs ledger f argv Dir Sm As J. exists []. split; [constructor|].
      rewrite (Rn fs ledger f argv As). destruct (Al d fs ledger f Dir Sm J) as [Qs (Hn & Ho & Hd)]. destruct (stats_run (machine E fs ledger) (naming O f) fl) as [[n' o' st'] r'].
      cbn in Qs, Hn, Ho, Hd. subst r' n' o'. exact (result_pieces L d o SPanic).
    + exists (concat o), [], [], (Some 1). intros d fs ledger f argv Dir Sm As J. exists []. split; [constructor|].
      rewrite (Rn fs ledger f argv As). destruct (Al d fs ledger f Dir Sm J) as [Qs (Hn & Ho & Hd)]. destruct (stats_run (machine E fs ledger) (naming O f) fl) as [[n' o' st'] r'].
      cbn in Qs, Hn, Ho, Hd. subst r' n' o'. exact (result_pieces L d o SFatal).
    + exists (concat o), [], [], None. intros d fs ledger f argv Dir Sm As J. exists []. split; [constructor|].
      rewrite (Rn fs ledger f argv As). destruct (Al d fs ledger f Dir Sm J) as [Qs (Hn & Ho & Hd)]. destruct (stats_run (machine E fs ledger) (naming O f) fl) as [[n' o' st'] r'].
      cbn in Qs, Hn, Ho, Hd. subst r' n' o'. exact (result_pieces L d o SDeep).
  - exists [], [], [], (Some 1). intros d fs ledger f argv Dir Sm As J. exists []. split; [constructor|]. rewrite (G1 fs ledger f argv As). unfold run_command, stats_cmd, with_filters.
    change (makeFilters (machine E fs ledger) (o_args (naming O f))) with (makeFilters E (o_args O)). now rewrite Mf.
  - exists [], [], [], (Some 2). intros d fs ledger f argv Dir Sm As J. exists []. split; [constructor|]. rewrite (G1 fs ledger f argv As). unfold run_command, stats_cmd, with_filters.
    change (makeFilters (machine E fs ledger) (o_args (naming O f))) with (makeFilters E (o_args O)). now rewrite Mf.
Qed.

(** A journal with an included file and one that is missing, in two places. *)
Definition books : list (str * str) := [(lit "j", lit "include s/k
2020-01-02 Shop
  A    $2
  B
"); (lit "s/k", lit "2020-01-01 Bank
  C    $3
  D
include l
")].
Definition books_at (d : str) (files : list (str * str)) (p : str) : option file := if str_eqb (firstn (length d) p) d then disk files (skipn (length d) p) else None.
Lemma asks_in : forall c f name, called c name -> f <> name -> name <> lit "-f" -> asks [lit "-f"; f; name] c (naming (opts0 "") f) false.
Proof.
  intros c f name Cl N N2. exists ([lit "-f"; f] ++ []), [Given FFile f], name, [], [].
  split; [reflexivity|]. split; [exact Cl|]. split.
  { constructor; [left; reflexivity|left; do 2 eexists; apply DocFile|apply (ShortNext FFile (lit "file") (ch "f")); apply DocFile|constructor]. }
  split; [intros [I|[I|[]]]; congruence|]. split; [apply LinePlain; constructor|constructor; reflexivity].
Qed.
Definition told (d : str) (c : String.string) (files : list (str * str)) : result :=
  gledger (machine (env0 []) (books_at d files) None) L0 help0 lib0 [lit "-f"; d ++ lit "j"; lit c].
Example C111_example :
  (forall d, In d [lit "books/"; lit "/home/a/"; []] -> directory d /\ (forall y, books_at d books (d ++ y) = disk books y) /\
     asks [lit "-f"; d ++ lit "j"; lit "statistics"] Statistics (naming (opts0 "") (d ++ lit "j")) false /\
     journal_path (machine (env0 []) (books_at d books) None) (naming (opts0 "") (d ++ lit "j")) = Some (d ++ lit "j")) /\
  orders (env0 []) /\
  told (lit "books/") "statistics" books = Result (lit "error at books/j:1
error at books/s/k:4
no file: books/s/l
") (Some 0) /\
  told (lit "/home/a/") "statistics" books = Result (lit "error at /home/a/j:1
error at /home/a/s/k:4
no file: /home/a/s/l
") (Some 0) /\
  firstn 41 (p_out (told (lit "x/") "statistics" [(lit "j", lit "include k
2020-01-02 Shop
  A    $2
  B
"); (lit "k", lit "2020-01-01 Bank
  C    $3
  D
")])) = lit "Transactions found in 2 files:
  x/k
  x/".
Proof.
  split; [|split; [apply env0_orders|split; [|split]; vm_compute; reflexivity]].
  intros d I. assert (D : directory d).
  { destruct I as [<-|[<-|[<-|[]]]]; (split; [first [left; reflexivity|right; reflexivity]|]).
    - exists (lit "books/"). split; [repeat constructor|reflexivity].
    - exists (lit "/home/a/"). split; [repeat constructor|reflexivity].
    - exists []. split; [constructor|reflexivity]. }
  split; [exact D|]. split; [|split].
  - intro y. unfold books_at. rewrite firstn_app, Nat.sub_diag, firstn_all, firstn_O, app_nil_r, str_eqb_refl.
    now rewrite skipn_app, Nat.sub_diag, skipn_all.
  - apply asks_in; [left; reflexivity| |discriminate]. destruct I as [<-|[<-|[<-|[]]]]; discriminate.
  - destruct I as [<-|[<-|[<-|[]]]]; reflexivity.
Qed.

(** ** C113: an absolute include names that file *)

(** False: the directory of the journal is put before it. *)
Definition rooted : list (str * str) := [(lit "b/j", lit "include /k
"); (lit "/k", lit "2020-01-01 Bank
  C    $3
  D
")].
Theorem C113_absolute_refuted :
  asks [lit "-f"; lit "b/j"; lit "accounts"] Accounts (naming (opts0 "") (lit "b/j")) false /\
  gledger (env0 rooted) L0 help0 lib0 [lit "-f"; lit "b/j"; lit "accounts"] = Result (lit "error at b/j:1
no file: b//k
") (Some 0).
Proof. split; [|vm_compute; reflexivity]. apply asks_in; [left; reflexivity|discriminate|discriminate]. Qed.

(** The file opened is always that of the directory; the one named only if the
    journal is named without directory. *)
Theorem C113_absolute_partial : forall U dir base ws name,
  directory dir -> ~ In 47 base -> spelt (Forall (fun r => isSpace r = true)) ws -> spelt phrase (47 :: name) ->
  included U (dir ++ base) (lit "include" ++ [32] ++ ws ++ 47 :: name) = Some (dir ++ 47 :: name) /\
  (dir ++ 47 :: name = 47 :: name <-> dir = []).
Proof.
  intros U dir base ws name [D V] B W N. split; [now apply C18_include_path_partial|].
  split; [|now intros ->]. intro Q. change (47 :: name) with ([] ++ 47 :: name) in Q at 2. now apply app_inv_tail in Q.
Qed.
Example C113_example : directory (lit "b/") /\ ~ In 47 (lit "j") /\ spelt (Forall (fun r => isSpace r = true)) (lit "  ") /\ spelt phrase (lit "/x/k y").
Proof.
  split; [split; [right; reflexivity|exists (lit "b/"); split; [repeat constructor|reflexivity]]|]. split; [cbn; lia|].
  split; [exists (lit "  "); split; [repeat constructor|split; [repeat constructor|reflexivity]]|].
  exists (lit "/x/k y"). split; [repeat constructor|]. split; [|reflexivity]. split; [discriminate|]. split; [split; [repeat constructor|reflexivity]|split; [reflexivity|discriminate]].
Qed.
