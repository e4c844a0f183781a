(** * C86: how deeply files may be nested *)
From Verif Require Import Base BaseFacts Utf8 Unicode GoTime Strconv Journal Lexer LexSpec LexerFacts Parser ParserFacts Account Budget
  FlatSpec FlatFacts Spec Cmd CmdSpec Unused Main MainSpec Sample ProgramFacts PropsMain.

Section Deep.
Context {S : Type}.
Variable U : unicode.
Variable fs : str -> option file.
Variable th : option (S -> transaction -> str -> S * status).
Variable ph : option (S -> ptransaction -> str -> S * status).

(** ** More room changes nothing *)
Lemma wrap_deep : forall f r, wrap_err f r = SDeep -> r = SDeep.
Proof. intros f [] H; now inversion H. Qed.

Definition refines (x y : pstate S * status) : Prop := snd x = SDeep \/ x = y.

Lemma parseItem_more : forall inc inc' i c st, (forall p st, refines (inc p st) (inc' p st)) -> refines (parseItem th ph inc st i c) (parseItem th ph inc' st i c).
Proof.
  intros inc inc' i c st H. destruct i; try (right; reflexivity). cbn [parseItem]. destruct (H (encode c) (set_files st (ps_files st ++ [encode c]))) as [D|E].
  - destruct (inc _ _) as [st' r]. cbn in D. subst r. now left.
  - rewrite E. now right.
Qed.
Lemma parseItems_more : forall inc inc' items e st, (forall p st, refines (inc p st) (inc' p st)) -> refines (parseItems th ph inc st items e) (parseItems th ph inc' st items e).
Proof.
  intros inc inc' items e st H. revert st. induction items as [|[i c] items IH]; intro st; cbn [parseItems]; [now right|].
  destruct (parseItem_more inc inc' i c st H) as [D|E].
  - destruct (parseItem th ph inc st i c) as [st' r]. cbn in D. subst r. now left.
  - rewrite E. destruct (parseItem th ph inc' st i c) as [st' []]; try (now right). apply IH.
Qed.
Lemma lexLines_more : forall inc inc' hint bad ls n st, (forall p st, refines (inc p st) (inc' p st)) ->
  refines (lexLines U th ph inc hint bad n ls st) (lexLines U th ph inc' hint bad n ls st).
Proof.
  intros inc inc' hint bad ls n st H. revert n st. induction ls as [|[l|] ls IH]; intros n st; cbn [lexLines]; [destruct bad; now right| |now right].
  destruct (lexLine U hint l) as [items e]. destruct (parseItems_more inc inc' items e st H) as [D|E].
  - destruct (parseItems th ph inc st items e) as [st' r]. cbn in D. subst r. now left.
  - rewrite E. destruct (parseItems th ph inc' st items e) as [st' []]; try (now right). apply IH.
Qed.
Lemma run_file_more : forall d d' hint f st, (d <= d')%nat -> refines (run_file U fs th ph d hint f st) (run_file U fs th ph d' hint f st).
Proof.
  induction d as [|d IH]; intros d' hint f st L.
  - destruct d'; cbn [run_file]; apply lexLines_more; intros; now left.
  - destruct d' as [|d']; [lia|]. cbn [run_file]. apply lexLines_more. intros p st'. destruct (fs p) as [g|]; [|now right].
    destruct (IH d' p g st' ltac:(lia)) as [D|E].
    + destruct (run_file U fs th ph d p g st') as [st2 r]. cbn in D. subst r. now left.
    + rewrite E. now right.
Qed.
Lemma parse_more : forall d d' hint f s, (d <= d')%nat -> snd (parse U fs th ph d hint f s) <> SDeep ->
  parse U fs th ph d' hint f s = parse U fs th ph d hint f s.
Proof.
  intros d d' hint f s L N. unfold parse in *. destruct (run_file_more d d' hint f (PS newBuilder [hint] s) L) as [D|E].
  - destruct (run_file U fs th ph d hint f _) as [st r]. cbn in D. subst r. now destruct N.
  - now rewrite E.
Qed.

(** ** Enough room *)
Definition calm (x : S * status) : Prop := snd x <> SDeep.
Hypothesis calm_th : match th with Some h => forall s t p, calm (h s t p) | None => True end.
Hypothesis calm_ph : match ph with Some h => forall s t p, calm (h s t p) | None => True end.

Lemma end_calm : forall st, snd (endTransaction th ph st) <> SDeep.
Proof.
  intro st. unfold endTransaction. destruct (b_type (ps_b st)).
  - destruct (b_txn (ps_b st)) as [t|]; [|discriminate]. destruct (endNormalTransaction (ps_b st) t) as [t' [e|]]; [discriminate|].
    destruct th as [h|]; [|discriminate]. match goal with |- context [h ?a ?b ?c] => specialize (calm_th a b c); destruct (h a b c) as [s' r] end.
    unfold calm in calm_th. cbn in calm_th. destruct r; cbn; congruence.
  - destruct (b_ptxn (ps_b st)) as [t|]; [|discriminate]. destruct (endNormalTransaction (ps_b st) (pt_txn t)) as [t' [e|]]; [discriminate|].
    destruct ph as [h|]; [|discriminate]. match goal with |- context [h ?a ?b ?c] => specialize (calm_ph a b c); destruct (h a b c) as [s' r] end.
    unfold calm in calm_ph. cbn in calm_ph. destruct r; cbn; congruence.
Qed.
Lemma build_calm : forall (st : pstate S) i c, snd (build_in st i c) <> SDeep.
Proof. intros st i c. unfold build_in. destruct (build _ _ _); discriminate. Qed.
Lemma item_calm : forall inc i c st, (i = includeItem -> forall st, snd (inc (encode c) st) <> SDeep) -> snd (parseItem th ph inc st i c) <> SDeep.
Proof.
  intros inc i c st H.
  assert (D : forall b f, snd (let '(st1, r) := endTransaction th ph st in match r with SOk => let '(st2, r2) := build_in (set_b st1 (beginTransaction (ps_b st1) b)) i c in (st2, wrap_err f r2) | _ => (st1, r) end) <> SDeep).
  { intros b f. pose proof (end_calm st) as Q. destruct (endTransaction th ph st) as [st1 r]. cbn in Q. destruct r; cbn; try congruence.
    pose proof (build_calm (set_b st1 (beginTransaction (ps_b st1) b)) i c) as B. destruct (build_in _ i c) as [st2 r2]. cbn in *. intro X. now apply wrap_deep in X. }
  destruct i; cbn [parseItem]; try apply end_calm; try apply build_calm; try apply D.
  specialize (H eq_refl). match goal with |- context [inc ?a ?b] => specialize (H b); destruct (inc a b) as [st' r] end. cbn in H. destruct r; cbn; congruence.
Qed.
Lemma items_calm : forall inc items e st, (forall c st, In (includeItem, c) items -> snd (inc (encode c) st) <> SDeep) -> snd (parseItems th ph inc st items e) <> SDeep.
Proof.
  intros inc items e. induction items as [|[i c] items IH]; intros st H; cbn [parseItems]; [destruct e; discriminate|].
  assert (X : snd (parseItem th ph inc st i c) <> SDeep) by (apply item_calm; intros -> st'; apply H; now left).
  destruct (parseItem th ph inc st i c) as [st' r]. cbn in X. destruct r; cbn; try congruence. apply IH. intros c' st2 I. apply H. now right.
Qed.
Lemma lines_calm : forall inc hint bad ls n st, (forall l p st, In (Line l) ls -> included U hint l = Some p -> snd (inc p st) <> SDeep) ->
  snd (lexLines U th ph inc hint bad n ls st) <> SDeep.
Proof.
  intros inc hint bad ls. induction ls as [|[l|] ls IH]; intros n st H; cbn [lexLines]; [destruct bad; [discriminate|apply end_calm]| |discriminate].
  assert (X : forall st, snd (let '(items, e) := lexLine U hint l in parseItems th ph inc st items e) <> SDeep).
  { intro st'. specialize (H l). unfold included in H. pose proof (lex_include_cases U hint l) as [[c Q]|[_ Q]].
    - rewrite Q in *. apply items_calm. intros c' st2 [[= <-]|[]]. apply H; [now left|reflexivity].
    - destruct (lexLine U hint l) as [items e]. cbn in Q. apply items_calm. intros c' st2 I. rewrite Forall_forall in Q. destruct (Q _ I) as [N _]. now destruct N. }
  specialize (X st). destruct (lexLine U hint l) as [items e]. destruct (parseItems th ph inc st items e) as [st' r]. cbn in X.
  destruct r; cbn; try congruence. apply IH. intros l' p st2 I. apply H. now right.
Qed.

(** [rank]: a bound on how deeply the files a file includes are nested. *)
Definition ranked (rank : str -> nat) : Prop := forall p f l p', fs p = Some f -> In (Line l) (file_lines (f_bytes f)) -> included U p l = Some p' -> (rank p' < rank p)%nat.
Lemma run_file_calm : forall rank, ranked rank -> forall d hint f st, fs hint = Some f -> (rank hint <= d)%nat -> snd (run_file U fs th ph d hint f st) <> SDeep.
Proof.
  intros rank R. induction d as [|d IH]; intros hint f st F L; cbn [run_file]; apply lines_calm; intros l p st' I Q; pose proof (R hint f l p F I Q) as LT; [lia|].
  destruct (fs p) as [g|] eqn:G; [|discriminate]. specialize (IH p g st' G ltac:(lia)). destruct (run_file U fs th ph d p g st') as [st2 r]. cbn in *.
  intro X. now apply wrap_deep in X.
Qed.
Lemma parse_calm : forall rank, ranked rank -> forall d hint f s, fs hint = Some f -> (rank hint <= d)%nat -> snd (parse U fs th ph d hint f s) <> SDeep.
Proof.
  intros rank R d hint f s F L. unfold parse. pose proof (run_file_calm rank R d hint f (PS newBuilder [hint] s) F L) as X.
  destruct (run_file U fs th ph d hint f _) as [st r]. cbn in *. intro Q. now apply wrap_deep in Q.
Qed.
End Deep.

(** ** Commands *)
Lemma checked_calm : forall E O D fs k, (forall s n t ps p, snd (k s n t ps p) <> SDeep) -> forall (s : hstate D) t p, calm (checked E O fs k s t p).
Proof.
  intros E O D fs k H s t p. unfold calm, checked. destruct (checkAgainstFilters E O fs (h_n s) t) as [[m ps]| |]; try discriminate.
  destruct (negb m && is_nil ps); [discriminate|apply H].
Qed.
Lemma date_checked_calm : forall E O D k, (forall s t p, snd (k s t p) <> SDeep) -> forall (s : hstate D) t p, calm (date_checked E O k s t p).
Proof.
  intros E O D k H s t p. unfold calm, date_checked. destruct (withinDateRange E O (h_n s) t) as [[]| |]; try discriminate. apply H.
Qed.
Lemma addPostings_calm : forall ps j, snd (j_addPostings j ps) <> SDeep.
Proof.
  induction ps as [|p ps IH]; intro j; cbn [j_addPostings]; [discriminate|]. destruct (j_addPosting j p) as [[j1 out]|]; [|discriminate].
  specialize (IH j1). destruct (j_addPostings j1 ps) as [[j2 out2] r]. exact IH.
Qed.
Lemma addRun_calm : forall ts j loc, snd (j_addRun j ts loc) <> SDeep.
Proof.
  induction ts as [|t ts IH]; intros j loc; cbn [j_addRun]; [discriminate|]. pose proof (addPostings_calm (t_postings t) (j_addTransaction j t loc)) as Q.
  destruct (j_addPostings _ _) as [[j1 out] r]. cbn in Q. destruct r; cbn; try congruence. specialize (IH j1 loc). destruct (j_addRun j1 ts loc) as [[j2 out2] r2]. exact IH.
Qed.
Lemma b_addPostings_calm : forall pt ps b d, snd (b_addPostings pt b d ps) <> SDeep.
Proof.
  intro pt. induction ps as [|p ps IH]; intros b d; cbn [b_addPostings]; [discriminate|]. destruct (pt p) as [ty|]; [|apply IH].
  destruct (b_addPosting b d p ty) as [[b1 out]|]; [|discriminate]. specialize (IH b1 d). destruct (b_addPostings pt b1 d ps) as [[b2 out2] r]. exact IH.
Qed.
Lemma periodic_calm : forall s pt path, calm (balance_ph s pt path).
Proof.
  intros s pt path. unfold calm, balance_ph, j_addPeriodicTransaction. destruct (is_pnone _); [discriminate|]. destruct (pt_run pt) as [ts out].
  match goal with |- context [j_addRun ?a ?b ?c] => pose proof (addRun_calm b a c) as Q; destruct (j_addRun a b c) as [[j2 out2] r] end. exact Q.
Qed.
Lemma budget_ph_calm : forall s pt path, calm (budget_ph s pt path).
Proof.
  intros s pt path. unfold calm, budget_ph. destruct (pt_run pt) as [ts out]. destruct (is_pnone _); [|discriminate]. destruct ts as [|t ts]; [discriminate|].
  match goal with |- context [b_addPostings ?a ?b ?c ?d] => pose proof (b_addPostings_calm a d b c) as Q; destruct (b_addPostings a b c d) as [[b2 out2] r] end. exact Q.
Qed.

(** Commands and how their reading ends. *)
Lemma parse_cmd_more : forall E O D th ph (s : D) d, (e_depth E <= d)%nat -> snd (parse_cmd E O th ph s) <> SDeep ->
  parse_cmd (with_files E (e_fs E) d) O th ph s = parse_cmd E O th ph s.
Proof.
  intros E O D th ph s d L. unfold parse_cmd. cbn [with_files e_unicode e_fs e_depth e_ledger_file]. destruct (match o_file O with [] => e_ledger_file E | f => Some f end) as [p|]; [|reflexivity].
  destruct (e_fs E p) as [f|]; [|reflexivity]. now apply parse_more.
Qed.
Lemma parse_cmd_calm : forall E O D th ph (s : D) rank, ranked (e_unicode E) (e_fs E) rank -> (forall p, rank p <= e_depth E)%nat ->
  match th with Some h => forall s t p, calm (h s t p) | None => True end -> match ph with Some h => forall s t p, calm (h s t p) | None => True end ->
  snd (parse_cmd E O th ph s) <> SDeep.
Proof.
  intros E O D th ph s rank R B T P. unfold parse_cmd. destruct (match o_file O with [] => e_ledger_file E | f => Some f end) as [p|]; [|discriminate].
  destruct (e_fs E p) as [f|] eqn:F; [|discriminate]. now apply (parse_calm _ _ _ _ T P rank R).
Qed.
Lemma finish_deep : forall D (r : hstate D * status) k, r_status (finish r k) <> SDeep -> snd r <> SDeep.
Proof. intros D [s st] k H Q. cbn in Q. subst st. now apply H. Qed.
Lemma finish_calm : forall D (r : hstate D * status) k, snd r <> SDeep -> (forall n d, snd (k n d) <> SDeep) -> r_status (finish r k) <> SDeep.
Proof.
  intros D [s st] k H K. cbn in H. unfold finish. destruct st; cbn; try congruence. specialize (K (h_n s) (h_data s)). destruct (k _ _) as [out st']. exact K.
Qed.
Lemma exit_deep : forall L r, p_exit (result_of L r) = None <-> r_status r = SDeep.
Proof. intros L [out st]. unfold result_of. cbn. destruct st as [|[]| | |]; cbn; split; congruence. Qed.

Lemma deeper_command : forall E d c O, (e_depth E <= d)%nat -> r_status (run_command E c O) <> SDeep ->
  run_command (with_files E (e_fs E) d) c O = run_command E c O.
Proof.
  intros E d c O L. destruct c; unfold run_command.
  1-6: unfold accounts_cmd, balance_cmd, budget_cmd, payees_cmd, print_cmd, stats_cmd, with_filters; change (makeFilters (with_files E (e_fs E) d)) with (makeFilters E);
    destruct (makeFilters E (o_args O)) as [l| |]; try reflexivity; intro N; apply finish_deep in N;
    unfold accounts_run, balance_run, budget_run, payees_run, print_run, stats_run in *; pose proof (parse_cmd_more E O _ _ _ _ d L N) as Q.
  all: try (f_equal; exact Q).
  reflexivity.
Qed.
Lemma calm_command : forall E c O rank, ranked (e_unicode E) (e_fs E) rank -> (forall p, rank p <= e_depth E)%nat -> r_status (run_command E c O) <> SDeep.
Proof.
  intros E c O rank R B. destruct c; unfold run_command, version_cmd.
  all: unfold accounts_cmd, balance_cmd, budget_cmd, payees_cmd, print_cmd, stats_cmd, with_filters; destruct (makeFilters E (o_args O)) as [l| |]; try discriminate.
  all: apply finish_calm; [|try (intros; discriminate)]; try (apply (parse_cmd_calm E O _ _ _ _ rank R B); [|try exact I]).
  - apply date_checked_calm. discriminate.
  - apply checked_calm. intros s n t ps p. unfold balance_handler. match goal with |- context [j_addPostings ?a ?b] => pose proof (addPostings_calm b a) as Q; destruct (j_addPostings a b) as [[? ?] ?] end. exact Q.
  - apply periodic_calm.
  - apply checked_calm. intros s n t ps p. unfold budget_handler. match goal with |- context [b_addPostings ?a ?b ?c ?d] => pose proof (b_addPostings_calm a d b c) as Q; destruct (b_addPostings a b c d) as [[? ?] ?] end. exact Q.
  - apply budget_ph_calm.
  - apply date_checked_calm. discriminate.
  - intros n u. destruct (payees_prepare _ _ _); discriminate.
  - apply checked_calm. discriminate.
  - apply checked_calm. intros s n t ps p. unfold stats_handler. destruct (stats_step _ _ _ _); discriminate.
Qed.

(** What the program does within a depth of nesting it does within any greater one. *)
Theorem C86_deeper : forall E L help_text library d argv, (e_depth E <= d)%nat -> p_exit (gledger E L help_text library argv) <> None ->
  gledger (with_files E (e_fs E) d) L help_text library argv = gledger E L help_text library argv.
Proof.
  intros E L help_text library d argv Ld. unfold gledger. destruct (strip_flags argv) as [|name rest]; [reflexivity|].
  destruct (find_next name) as [[c|]|]; try reflexivity. unfold execute. destruct (parse_args (cmd_flags c) (minus_first name argv) fs_init) as [s|]; [|reflexivity].
  destruct (fs_help s); [reflexivity|]. intro N. rewrite exit_deep in N. now rewrite (deeper_command E d c _ Ld).
Qed.

(** A depth that no chain of includes exceeds is enough. *)
Theorem C86_enough : forall E L help_text library rank argv, ranked (e_unicode E) (e_fs E) rank -> (forall p, rank p <= e_depth E)%nat ->
  (forall a, p_exit (library a) <> None) -> p_exit (gledger E L help_text library argv) <> None.
Proof.
  intros E L help_text library rank argv R B Lb. unfold gledger.
  assert (Rt : forall a, p_exit (execute_root E L help_text a) <> None).
  { intro a. unfold execute_root. destruct (parse_args _ _ _) as [s|]; [|discriminate]. destruct (fs_help s); [discriminate|]. rewrite exit_deep. unfold with_filters.
    destruct (makeFilters E (o_args (fs_opts s))); discriminate. }
  destruct (strip_flags argv) as [|name rest]; [apply Rt|]. destruct (find_next name) as [[c|]|]; [|apply Lb|discriminate].
  unfold execute. destruct (parse_args (cmd_flags c) (minus_first name argv) fs_init) as [s|]; [|discriminate].
  destruct (fs_help s); [discriminate|]. rewrite exit_deep. now apply (calm_command E c _ rank).
Qed.

(** A journal that includes a file: depth 1 is enough, depth 0 is not. *)
Definition nested : list (str * str) := [(lit "j", lit "include k
2020-01-02 Shop
  A    $2
  B
"); (lit "k", lit "2020-01-01 Bank
  C    $3
  D
")].
Definition nested_rank (p : str) : nat := if str_eqb p (lit "j") then 1 else 0.
Definition lib1 (args : list str) : result := Result [] (Some 0).
Example C86_example :
  ranked U0 (disk nested) nested_rank /\ (forall p, nested_rank p <= 5)%nat /\ (forall a, p_exit (lib1 a) <> None) /\
  p_exit (gledger (env0 nested) L0 help0 lib1 [lit "-f"; lit "j"; lit "accounts"]) = Some 0 /\
  p_exit (gledger (with_files (env0 nested) (disk nested) 0) L0 help0 lib1 [lit "-f"; lit "j"; lit "accounts"]) = None.
Proof.
  split; [|split; [|split; [|split; vm_compute; reflexivity]]].
  - intros p f l p' F I Q. unfold disk, nested in F. cbn [assoc] in F. unfold nested_rank.
    destruct (str_eqb p (lit "j")) eqn:J.
    + apply str_eqb_eq in J. subst p. injection F as <-. vm_compute in I.
      repeat (destruct I as [I|I]; [injection I as <-; vm_compute in Q; first [discriminate Q|injection Q as <-; vm_compute; lia]|]). destruct I.
    + destruct (str_eqb p (lit "k")) eqn:K; [|discriminate]. apply str_eqb_eq in K. subst p. injection F as <-. vm_compute in I.
      repeat (destruct I as [I|I]; [injection I as <-; vm_compute in Q; discriminate Q|]). destruct I.
  - intro p. unfold nested_rank. destruct (str_eqb _ _); lia.
  - intro a. unfold lib1. discriminate.
Qed.

(** ** C87: only the files included are read *)
Definition closed (U : unicode) (fs : str -> option file) (P : str -> Prop) : Prop :=
  forall p f l p', P p -> fs p = Some f -> In (Line l) (file_lines (f_bytes f)) -> included U p l = Some p' -> P p'.

Section Elsewhere.
Context {S : Type}.
Variable U : unicode.
Variables fs fs' : str -> option file.
Variable th : option (S -> transaction -> str -> S * status).
Variable ph : option (S -> ptransaction -> str -> S * status).
Variable P : str -> Prop.
Hypothesis shut : closed U fs P.
Hypothesis same : forall p, P p -> fs p = fs' p.

Lemma lexLines_within : forall inc inc' hint bad ls, (forall l p st, In (Line l) ls -> included U hint l = Some p -> inc p st = inc' p st) -> forall n st,
  lexLines U th ph inc hint bad n ls st = lexLines U th ph inc' hint bad n ls st.
Proof.
  intros inc inc' hint bad ls. induction ls as [|[l|] ls IH]; intros H n st; cbn [lexLines]; [destruct bad; reflexivity| |reflexivity].
  assert (X : (let '(items, e) := lexLine U hint l in parseItems th ph inc st items e) = (let '(items, e) := lexLine U hint l in parseItems th ph inc' st items e)).
  { assert (K : forall items e st, (forall c, In (includeItem, c) items -> forall st, inc (encode c) st = inc' (encode c) st) -> parseItems th ph inc st items e = parseItems th ph inc' st items e).
    { induction items as [|[i c] items IHi]; intros e st' A; cbn [parseItems]; [reflexivity|].
      assert (parseItem th ph inc st' i c = parseItem th ph inc' st' i c) as ->.
      { destruct i; cbn [parseItem]; try reflexivity. now rewrite (A c) by now left. }
      destruct (parseItem th ph inc' st' i c) as [st2 []]; try reflexivity. apply IHi. intros c' I. apply A. now right. }
    specialize (H l). unfold included in H. destruct (lex_include_cases U hint l) as [[c Q]|[_ Q]].
    - rewrite Q in *. apply K. intros c' [[= <-]|[]] st2. apply H; [now left|reflexivity].
    - destruct (lexLine U hint l) as [items e]. apply K. intros c I. rewrite Forall_forall in Q. destruct (Q _ I) as [N _]. now destruct N. }
  destruct (lexLine U hint l) as [items e]. rewrite X. destruct (parseItems th ph inc' st items e) as [st' []]; try reflexivity.
  apply IH. intros l' p st2 I. apply H. now right.
Qed.
Lemma run_file_within : forall d hint f st, P hint -> fs hint = Some f -> run_file U fs th ph d hint f st = run_file U fs' th ph d hint f st.
Proof.
  induction d as [|d IH]; intros hint f st Ph F; cbn [run_file]; [reflexivity|]. apply lexLines_within. intros l p st' I Q.
  pose proof (shut hint f l p Ph F I Q) as Pp. rewrite <- (same p Pp). destruct (fs p) as [g|] eqn:G; [|reflexivity]. now rewrite (IH p g st' Pp G).
Qed.
End Elsewhere.

Theorem C87_elsewhere : forall E L help_text library fs' (P : str -> Prop) argv c O, asks argv c O false ->
  (forall p, journal_path E O = Some p -> P p) -> closed (e_unicode E) (e_fs E) P -> (forall p, P p -> e_fs E p = fs' p) ->
  gledger (with_files E fs' (e_depth E)) L help_text library argv = gledger E L help_text library argv.
Proof.
  intros E L help_text library fs' P argv c O As J Cl Sm.
  assert (R : reads_same E (with_files E fs' (e_depth E)) O).
  { intros D th ph s. unfold parse_cmd. cbn [with_files e_unicode e_fs e_depth e_ledger_file]. unfold journal_path in J.
    destruct (match o_file O with [] => e_ledger_file E | f => Some f end) as [p|]; [|reflexivity]. specialize (J p eq_refl). rewrite <- (Sm p J).
    destruct (e_fs E p) as [f|] eqn:F; [|reflexivity]. unfold parse. now rewrite (run_file_within _ _ _ th ph P Cl Sm (e_depth E) p f _ J F). }
  destruct (C79_flags_partial (with_files E fs' (e_depth E)) L help_text library argv c O false As) as [G' _].
  destruct (C79_flags_partial E L help_text library argv c O false As) as [G _]. rewrite (G eq_refl), (G' eq_refl).
  pose proof (same_commands E fs' (e_depth E) O R c) as X. destruct c; exact (f_equal (result_of L) (eq_sym X)).
Qed.

(** The journal of the example above, and another file that is not read. *)
Definition nested_more : list (str * str) := nested ++ [(lit "x", lit "nonsense"); (lit "y", lit "include y")].
Example C87_example :
  asks [lit "-f"; lit "j"; lit "print"] Print (opts0 "j") false /\
  closed U0 (disk nested) (fun p => p = lit "j" \/ p = lit "k") /\
  (forall p, p = lit "j" \/ p = lit "k" -> disk nested p = disk nested_more p) /\
  disk nested (lit "x") <> disk nested_more (lit "x").
Proof.
  split; [exact asks_print|]. split; [|split; [|discriminate]].
  - intros p f l p' [->| ->] F I Q; injection F as <-; vm_compute in I.
    + repeat (destruct I as [I|I]; [injection I as <-; vm_compute in Q; first [discriminate Q|injection Q as <-; now right]|]). destruct I.
    + repeat (destruct I as [I|I]; [injection I as <-; vm_compute in Q; discriminate Q|]). destruct I.
  - intros p [->| ->]; reflexivity.
Qed.
