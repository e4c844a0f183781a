(** * C136: entries written before a journal move its mistakes down *)
From Verif Require Import Base BaseFacts Utf8 Unicode GoTime Strconv Display Journal Lexer Parser Account Reporting Budget Cmd Spec TextSpec
  TreeSpec ReportSpec CmdSpec CmdFacts FlatSpec LexSpec Sample LineFacts ParserFacts PropsCmd PropsBalance Unused Main MainSpec ProgramFacts PropsMain PropsDepth PropsAgain IncludeFacts FlatFacts PropsWhere PropsConcat PropsJoin PropsJoinMore PropsUnread.

(** ** A mistake later in the journal *)

(** A text that begins with the header of an entry, good or bad. *)
Definition headed (b : str) : Prop := exists c b', b = c :: b' /\ (c = 126 \/ 48 <= c <= 57).
(** The first items of such a line. *)
Definition heading (x : lexed) : Prop := match fst x with [] => snd x <> None | (i, _) :: _ => i = dateItem \/ i = periodItem end.

Lemma raw_first : forall s cur, cur <> [] -> exists more t rest, raw_lines cur s = (rev cur ++ more, t) :: rest.
Proof.
  induction s as [|c s IH]; intros cur N; cbn [raw_lines].
  - destruct cur; [contradiction|]. exists [], false, []. now rewrite app_nil_r.
  - destruct (c =? newline); [exists [], true, (raw_lines [] s); now rewrite app_nil_r|].
    destruct (IH (c :: cur) ltac:(discriminate)) as (more & t & rest & ->). exists (c :: more), t, rest. cbn [rev]. now rewrite <- app_assoc.
Qed.
Lemma headed_lines : forall U hint b, headed b -> exists rest, file_lines b = LongLine :: rest \/ exists l, file_lines b = Line l :: rest /\ heading (lexLine U hint l).
Proof.
  intros U hint b (c & b' & -> & C). unfold file_lines. cbn [raw_lines].
  assert (N : c =? newline = false) by (apply Z.eqb_neq; unfold newline; lia). rewrite N.
  destruct (raw_first b' [c] ltac:(discriminate)) as (more & t & rest & ->). cbn [rev app map]. exists (map read_line rest).
  assert (RL : read_line (c :: more, t) = if bufferSize <=? Z.of_nat (length (c :: more)) then LongLine else Line (if t then chop_cr (c :: more) else c :: more)) by reflexivity.
  destruct (bufferSize <=? Z.of_nat (length (c :: more))); [left; now rewrite RL|right]. rewrite RL.
  assert (exists l', (if t then chop_cr (c :: more) else c :: more) = c :: l') as (l' & Q) by (destruct t; [apply chop_cr_cons; lia|eauto]).
  exists (c :: l'). split; [now rewrite <- Q|]. unfold lexLine.
  assert (Nx : next (Lx (c :: l') 0 0) = (c, Lx (c :: l') 1 1)).
  { unfold next. cbn [l_input l_pos length Nat.leb skipn decode_rune]. assert (B : between 0 c 127 = true) by (unfold between; lia). rewrite B. reflexivity. }
  rewrite Nx. unfold isCommentIndicator. destruct (Z.eqb_spec c c_semi) as [->|_]; [exfalso; unfold c_semi in C; lia|].
  destruct (Z.eqb_spec c c_hash) as [->|_]; [exfalso; unfold c_hash in C; lia|]. cbn [orb].
  destruct (Z.eqb_spec c c_i) as [->|_]; [exfalso; unfold c_i in C; lia|]. destruct (Z.eqb_spec c eof) as [->|_]; [exfalso; unfold eof in C; lia|].
  destruct (Z.eqb_spec c c_tilde) as [->|T].
  - unfold lexPeriodTransactionHeader. destruct (consumeSpace _) as [n l1]. destruct (n =? 0); [cbn; discriminate|]. destruct (takeToTabOrNextLineOrComment l1). cbn. now right.
  - assert (D : isNumber U c = true) by (unfold isNumber, between; unfold c_tilde in T; replace (c <? 0) with false by lia; replace (c <=? 255) with true by lia; lia).
    rewrite D. unfold lexTransactionHeader. destruct (takeUntilSpace _) as [date l1]. destruct (consumeSpace l1) as [n2 l2]. destruct (next l2) as [nx l3].
    destruct (if nx =? c_bang then _ else _) as [items l4]. destruct (takeToTabOrNextLineOrComment l4) as [payee l5]. destruct (takeToNextLine l5). cbn. now left.
Qed.

(** The same mistake [k] lines further down. *)
Definition further (k : Z) (r r' : status) : Prop :=
  match r with SErr (EErrorAt (EAt h n e)) => r' = SErr (EErrorAt (EAt h (n + k) e)) | _ => r' = r end.

Section Later.
Variable U : unicode.
Notation th := (Some rec_th).
Notation ph := (Some rec_ph).

(** Reading goes on after a blank line. *)
Lemma lines_read : forall inc hint rest ls n st st', lexLines U th ph inc hint false n (ls ++ [Line []]) st = (st', SOk) ->
  lexLines U th ph inc hint false n (ls ++ Line [] :: rest) st = lexLines U th ph inc hint false (n + Z.of_nat (length ls) + 1) rest st'.
Proof.
  intros inc hint rest ls. induction ls as [|[l|] ls IH]; intros n st st' H; cbn [app] in *.
  - revert H. assert (Q : lexLine U hint [] = ([(emptyLineItem, [])], None)) by reflexivity. cbn [lexLines]. rewrite Q. cbn [parseItems parseItem length].
    destruct (endTransaction th ph st) as [st1 r] eqn:En. destruct r; try discriminate. rewrite (ended _ _ _ _ En). intros [= <-]. f_equal. lia.
  - revert H. cbn [lexLines]. destruct (lexLine U hint l) as [items e]. destruct (parseItems th ph inc st items e) as [st1 r]. destruct r; try discriminate.
    intro H. rewrite (IH _ _ _ H). f_equal. cbn [length]. lia.
  - discriminate H.
Qed.

(** The files being read, between lines of the main one. *)
Lemma items_files : forall inc p items e st st', (forall q st, hd_error (ps_files st) = Some p -> last (ps_files st) [] = q -> snd (inc q st) = SOk -> hd_error (ps_files (fst (inc q st))) = Some p) ->
  ps_files st = [p] -> parseItems th ph inc st items e = (st', SOk) -> ps_files st' = [p].
Proof.
  intros inc p items e st st' Inc. revert st. induction items as [|[i c] items IH]; intros st F H; cbn [parseItems] in H.
  - now injection H as <- _.
  - assert (En : forall (st1 st2 : pstate (list event)) r, endTransaction th ph st1 = (st2, r) -> ps_files st2 = ps_files st1).
    { intros st1 st2 r. unfold endTransaction. destruct (b_type (ps_b st1)); [destruct (b_txn (ps_b st1))|destruct (b_ptxn (ps_b st1))]; try (intros [= <- _]; reflexivity).
      all: destruct (endNormalTransaction _ _) as [t' [er|]]; cbn; intros [= <- _]; reflexivity. }
    assert (Bu : forall (st1 st2 : pstate (list event)) r, build_in st1 i c = (st2, r) -> ps_files st2 = ps_files st1).
    { intros st1 st2 r. unfold build_in. destruct (build (ps_b st1) i c); intros [= <- _]; reflexivity. }
    destruct (parseItem th ph inc st i c) as [st1 r] eqn:P. destruct r; try discriminate. apply (IH st1); [|exact H]. rewrite <- F.
    destruct i; cbn [parseItem] in P; try (now apply Bu in P); try (now apply En in P).
    + pose proof (Inc (encode c) (set_files st (ps_files st ++ [encode c]))) as K. destruct (inc (encode c) _) as [st2 r2]. destruct r2; try discriminate.
      injection P as <-. cbn [set_files ps_files fst snd] in *. rewrite F in K |- *. specialize (K eq_refl eq_refl eq_refl). destruct (ps_files st2) as [|x xs]; [discriminate|]. cbn in K |- *. now injection K as ->.
    + destruct (endTransaction th ph st) as [st2 r2] eqn:E2. apply En in E2. destruct r2; try discriminate.
      match goal with X : (let '(_, _) := ?b in _) = _ |- _ => destruct b as [st3 r3] eqn:E3 end. apply Bu in E3. injection P as <- _. rewrite E3. exact E2.
    + destruct (endTransaction th ph st) as [st2 r2] eqn:E2. apply En in E2. destruct r2; try discriminate.
      match goal with X : (let '(_, _) := ?b in _) = _ |- _ => destruct b as [st3 r3] eqn:E3 end. apply Bu in E3. injection P as <- _. rewrite E3. exact E2.
Qed.
Lemma lines_files : forall inc p hint ls n st st', (forall q st, hd_error (ps_files st) = Some p -> last (ps_files st) [] = q -> snd (inc q st) = SOk -> hd_error (ps_files (fst (inc q st))) = Some p) ->
  ps_files st = [p] -> lexLines U th ph inc hint false n ls st = (st', SOk) -> ps_files st' = [p].
Proof.
  intros inc p hint ls n st st' Inc. revert n st. induction ls as [|[l|] ls IH]; intros n st F H; cbn [lexLines] in H.
  - apply (items_files inc p [(eofItem, [])] None st st' Inc F). cbn [parseItems]. now rewrite H.
  - destruct (lexLine U hint l) as [items e]. destruct (parseItems th ph inc st items e) as [st1 r] eqn:P. destruct r; try discriminate.
    apply (IH _ _ (items_files inc p items e st st1 Inc F P) H).
  - discriminate.
Qed.

(** Ending an entry says nothing of lines. *)
Lemma end_unplaced : forall st st' h n e, endTransaction th ph st <> (st', SErr (EAt h n e)).
Proof.
  assert (N : forall b t t' h n e, endNormalTransaction b t <> (t', Some (EAt h n e))).
  { assert (Ad : forall t p t' er, t_addPosting t p = (t', Some er) -> er = ETwoElided).
    { intros t p t' er. unfold t_addPosting. destruct (po_amount p); [discriminate|]. destruct (t_elided t); [|discriminate]. now intros [= _ <-]. }
    assert (Cl : forall t t' er, t_close t = (t', Some er) -> er = EUnbalanced).
    { intros t t' er. unfold t_close. destruct (close_loop _ _ _) as [sum c]. destruct (negb (sum =? 0)); [|discriminate]. destruct (t_elided t); [discriminate|]. now intros [= _ <-]. }
    intros b t t' h n e H. unfold endNormalTransaction in H. destruct (b_cur b) as [q|].
    - destruct (t_addPosting t q) as [t1 [e1|]] eqn:A; [|now apply Cl in H]. injection H as _ ->. now apply Ad in A.
    - now apply Cl in H. }
  intros st st' h n e H. unfold endTransaction in H. destruct (b_type (ps_b st)).
  - destruct (b_txn (ps_b st)) as [t|]; [|discriminate]. destruct (endNormalTransaction (ps_b st) t) as [t' [er|]] eqn:X; cbn in H; [|discriminate].
    injection H as _ ->. now apply N in X.
  - destruct (b_ptxn (ps_b st)) as [t|]; [|discriminate]. destruct (endNormalTransaction (ps_b st) (pt_txn t)) as [t' [er|]] eqn:X; cbn in H; [|discriminate].
    injection H as _ ->. now apply N in X.
Qed.

(** Numbering lines from elsewhere. *)
Definition shifted (k : Z) (r r' : status) : Prop := match r with SErr (EAt h n e) => r' = SErr (EAt h (n + k) e) | _ => r' = r end.
Lemma lines_shifted : forall inc hint ls n k st, exists r', shifted k (snd (lexLines U th ph inc hint false n ls st)) r' /\
  lexLines U th ph inc hint false (n + k) ls st = (fst (lexLines U th ph inc hint false n ls st), r').
Proof.
  intros inc hint ls. induction ls as [|[l|] ls IH]; intros n k st; cbn [lexLines].
  - destruct (parseItem th ph inc st eofItem []) as [st1 r] eqn:P. exists r. split; [|reflexivity]. cbn [snd]. unfold shifted. destruct r as [|e| | |]; try reflexivity.
    destruct e; try reflexivity. exfalso. revert P. cbn [parseItem]. apply end_unplaced.
  - destruct (lexLine U hint l) as [items e]. destruct (parseItems th ph inc st items e) as [st1 r]. destruct r; try (eexists; split; [|reflexivity]; reflexivity).
    replace (n + k + 1) with (n + 1 + k) by lia. apply IH.
  - exists SFatal. split; reflexivity.
Qed.

(** Between entries, reading the header of an entry is as at the start. *)
Definition ahead (evs : list event) (A B : pstate (list event) * status) : Prop := snd A = snd B /\ ps_s (fst A) = evs ++ ps_s (fst B).
Lemma lines_ahead : forall fs evs d hint bad ls n a b, ps_b a = ps_b b -> ps_files a = ps_files b -> ps_s a = evs ++ ps_s b ->
  let inc := match d with O => fun _ st' => (st', SDeep) | Datatypes.S d => fun path st' => match fs path with None => (st', SErr (EOpen path))
    | Some f' => let '(st2, r) := run_file U fs th ph d path f' st' in (st2, wrap_err EErrorAt r) end end in
  ahead evs (lexLines U th ph inc hint bad n ls a) (lexLines U th ph inc hint bad n ls b) /\
  forall items e, ParseRel.pagree (list event) (list event) (fun s h => s = evs ++ h) (fun s h => s = evs ++ h) (fun _ => False) (parseItems th ph inc a items e) (parseItems th ph inc b items e).
Proof.
  intros fs evs d hint bad ls n a b B F S inc.
  set (R := fun s h : list event => s = evs ++ h).
  assert (P : ParseRel.prel (list event) (list event) R a b) by (split; [exact B|split; [exact F|exact S]]).
  assert (Rt : forall s h t p, R s h -> ParseRel.agree (list event) (list event) R R (fun _ => False) (ParseRel.run_t th s t p) (ParseRel.run_t th h t p)).
  { intros s h t q ->. left. cbn. split; [reflexivity|]. unfold R. rewrite app_assoc. auto. }
  assert (Rp : forall s h t p, R s h -> ParseRel.agree (list event) (list event) R R (fun _ => False) (ParseRel.run_p ph s t p) (ParseRel.run_p ph h t p)).
  { intros s h t q ->. left. cbn. split; [reflexivity|]. unfold R. rewrite app_assoc. auto. }
  assert (I : ParseRel.inc_agree (list event) (list event) R R (fun _ => False) inc inc).
  { intros path x y Pxy. unfold inc. destruct d as [|d]; [now apply ParseRel.pagree_ret|]. destruct (fs path) as [f'|]; [|now apply ParseRel.pagree_ret].
    apply ParseRel.pagree_wrap. now apply ParseRel.file_agree. }
  split.
  - pose proof (ParseRel.lines_agree U (list event) (list event) th ph th ph R R (fun _ => False) (fun s h H => H) Rt Rp inc inc I hint bad ls n a b P) as K.
    destruct K as [(Q & _ & _ & Z & _)|[_ []]]. split; [exact Q|exact Z].
  - intros items e. now apply ParseRel.items_agree.
Qed.

Lemma file_idle : forall fs d p f st', run_file U fs th ph d p f (PS newBuilder [p] []) = (st', SOk) -> idle (ps_b st').
Proof.
  intros fs d p f st' H. pose proof (file_attributed U fs d p p f (PS newBuilder [p] []) eq_refl eq_refl) as D. rewrite H in D. cbn [ps_b] in D.
  destruct (attributed U (tag U fs d p p f) newBuilder) as [[b evs] r] eqn:A. cbn [did] in D. destruct D as (D1 & _ & D3).
  assert (r = SOk) as -> by (destruct r; try discriminate; reflexivity). destruct (D3 eq_refl) as [-> _].
  apply attributed_flat in A; [|rewrite tag_expand; apply expand_stops]. rewrite tag_expand in A.
  destruct (expand_blank U fs _ _ _ _ _ A) as (ls & Q). pose proof (expand_stops U fs d p f) as St. rewrite Q in A, St. apply Forall_app in St as [St _].
  rewrite flat_app in A by exact St. apply fbind_ok in A as (b0 & e0 & e1 & G1 & G2 & _).
  apply (single_flat _ _ _ _ _ St) in G1; [|cbn; auto].
  cbn in G2. destruct (close_open b0) as [[x y] r] eqn:C. destruct r; inversion G2; subst. eapply close_single; eassumption.
Qed.

Let inc_at (fs : str -> option file) (d : nat) : str -> pstate (list event) -> pstate (list event) * status :=
  match d with O => fun _ st' => (st', SDeep) | Datatypes.S d => fun path st' => match fs path with None => (st', SErr (EOpen path))
    | Some f' => let '(st2, r) := run_file U fs th ph d path f' st' in (st2, wrap_err EErrorAt r) end end.
Lemma run_at : forall fs d hint f st, run_file U fs th ph d hint f st = lexLines U th ph (inc_at fs d) hint (f_bad f) 1 (file_lines (f_bytes f)) st.
Proof. intros fs [|d] hint f st; reflexivity. Qed.
Lemma inc_top : forall fs d p q st, hd_error (ps_files st) = Some p -> last (ps_files st) [] = q -> snd (inc_at fs d q st) = SOk -> hd_error (ps_files (fst (inc_at fs d q st))) = Some p.
Proof.
  intros fs [|d] p q st H L; cbn [inc_at]; [discriminate|]. destruct (fs q) as [f|]; [|discriminate].
  pose proof (file_attributed U fs d p q f st H L) as D. destruct (run_file U fs th ph d q f st) as [st2 r]. destruct (attributed _ _ _) as [[b evs] r2]. cbn [did] in D.
  destruct D as (D1 & _ & D3). cbn [fst snd]. intro X. assert (r = SOk) as -> by (destruct r; try discriminate; reflexivity). apply D3. destruct r2; try discriminate; reflexivity.
Qed.

Lemma header_ahead : forall fs d p st items e, heading (items, e) -> idle (ps_b st) -> ps_files st = [p] ->
  let A := parseItems th ph (inc_at fs d) st items e in let B := parseItems th ph (inc_at fs d) (PS newBuilder [p] []) items e in
  ahead (ps_s st) A B /\ (snd A = SOk -> ps_b (fst A) = ps_b (fst B) /\ ps_files (fst A) = ps_files (fst B)).
Proof.
  intros fs d p [b fl s] items e Hd I F. cbn [ps_b ps_files ps_s] in *. subst fl.
  destruct items as [|[i c] items]; cbn [heading fst snd] in Hd.
  - cbn [parseItems]. destruct e as [e|]; [|contradiction]. unfold ahead. cbn. rewrite app_nil_r. split; [auto|discriminate].
  - assert (Nw : idle newBuilder) by (repeat split).
    assert (Hp : exists b1 r, parseItem th ph (inc_at fs d) (PS b [p] s) i c = (PS b1 [p] s, r) /\
      exists b2, parseItem th ph (inc_at fs d) (PS newBuilder [p] []) i c = (PS b2 [p] [], r) /\ (r = SOk -> b1 = b2)).
    { destruct I as (I1 & I2 & I3). destruct b as [ty tx pt cu pv]. cbn in I1, I2, I3. subst tx pt cu.
      destruct Hd as [-> | ->]; destruct ty; cbn [parseItem]; unfold build_in, build; cbn; try (destruct (parseDate c); cbn); eexists _, _; (split; [reflexivity|]); eexists; (split; [reflexivity|]); intro X; first [discriminate X|reflexivity]. }
    destruct Hp as (b1 & r & P1 & b2 & P2 & Q). cbn zeta. cbn [parseItems]. rewrite P1, P2. clear P1 P2.
    destruct r; try (unfold ahead; cbn; rewrite app_nil_r; split; [auto|discriminate]). rewrite (Q eq_refl). clear Q.
    destruct (lines_ahead fs s d [] false [] 0 (PS b2 [p] s) (PS b2 [p] []) eq_refl eq_refl (eq_sym (app_nil_r s))) as [_ K].
    destruct (K items e) as [(K1 & K2 & K3 & K4 & _)|[_ []]]. unfold ahead. auto.
Qed.

Lemma trace_further : forall fs d p a b, line_start a -> headed b -> snd (trace U fs d p (File a false)) = SOk ->
  let Ra := trace U fs d p (File a false) in let Rb := trace U fs d p (File b false) in let R := trace U fs d p (File (a ++ LF :: b) false) in
  fst R = fst Ra ++ fst Rb /\ further (Z.of_nat (length (file_lines a)) + 1) (snd Rb) (snd R).
Proof.
  intros fs d p a b St Hd Ok. cbn zeta.
  assert (Nil : trace U fs d p (File [] false) = ([], SOk)) by (destruct d; reflexivity).
  pose proof (C75_concatenation U fs d p a [] St) as [C _]. pose proof (C75_attribution U fs d p a [] St Ok (f_equal snd Nil)) as Ca. cbv zeta beta in C, Ca.
  assert (Ok1 : snd (trace U fs d p (File (a ++ [LF]) false)) = SOk) by (apply C; split; [exact Ok|now rewrite Nil]).
  rewrite Nil in Ca. cbn [fst] in Ca. rewrite app_nil_r in Ca. rewrite <- Ca. clear C Ca Ok.
  unfold trace, parse in Ok1 |- *.
  destruct (run_file U fs th ph d p (File (a ++ [LF]) false) (PS newBuilder [p] [])) as [st r] eqn:R1. cbn [snd fst] in *.
  assert (r = SOk) as -> by (destruct r; try discriminate; reflexivity). clear Ok1.
  pose proof (file_idle _ _ _ _ _ R1) as Id. rewrite run_at in R1. cbn [f_bad f_bytes] in R1.
  assert (Fl : ps_files st = [p]) by (eapply lines_files; [exact (inc_top fs d p)| |exact R1]; reflexivity).
  rewrite (joined_lines a [] St) in R1. change (file_lines []) with (@nil Lexer.line) in R1.
  rewrite !run_at. cbn [f_bad f_bytes]. rewrite (joined_lines a b St), (lines_read _ _ (file_lines b) _ _ _ _ R1).
  set (k := Z.of_nat (length (file_lines a)) + 1). replace (1 + Z.of_nat (length (file_lines a)) + 1) with (1 + k) by lia.
  destruct (lines_shifted (inc_at fs d) p (file_lines b) 1 k st) as (r' & Sh & ->).
  assert (A : ahead (ps_s st) (lexLines U th ph (inc_at fs d) p false 1 (file_lines b) st) (lexLines U th ph (inc_at fs d) p false 1 (file_lines b) (PS newBuilder [p] []))).
  { destruct (headed_lines U p b Hd) as (rest & [-> | (l & -> & Hl)]); cbn [lexLines].
    - unfold ahead. cbn. now rewrite app_nil_r.
    - destruct (lexLine U p l) as [items e]. destruct (header_ahead fs d p st items e Hl Id Fl) as [H1 H2].
      destruct (parseItems th ph (inc_at fs d) st items e) as [s1 r1]. destruct (parseItems th ph (inc_at fs d) (PS newBuilder [p] []) items e) as [s2 r2].
      destruct H1 as [H1 H3]. cbn [fst snd] in *. subst r2. destruct r1; try (split; [reflexivity|exact H3]).
      destruct (H2 eq_refl) as [B F]. now apply (lines_ahead fs (ps_s st) d p false rest (1 + 1) s1 s2 B F H3). }
  destruct A as [A1 A2]. rewrite A1 in Sh. destruct (lexLines U th ph (inc_at fs d) p false 1 (file_lines b) (PS newBuilder [p] [])) as [sb rb]. cbn [fst snd] in *.
  split; [exact A2|]. unfold shifted, further in *. destruct rb as [|e| | |]; subst; try reflexivity. cbn [wrap_err]. destruct e; now subst.
Qed.
End Later.

(** Lines of a text that ends with one. *)
Lemma lines_counted : forall a, line_start a -> length (file_lines a) = count_occ Z.eq_dec a LF.
Proof.
  assert (K : forall s cur, length (raw_lines cur (s ++ [LF])) = count_occ Z.eq_dec (s ++ [LF]) LF).
  { induction s as [|c s IH]; intro cur; cbn [app raw_lines].
    - reflexivity.
    - destruct (Z.eqb_spec c newline) as [->|N].
      + cbn [length]. rewrite IH. rewrite count_occ_cons_eq; reflexivity.
      + rewrite IH. rewrite count_occ_cons_neq; [reflexivity|exact N]. }
  intros a [-> | (s & ->)]; [reflexivity|]. unfold file_lines. rewrite map_length. apply K.
Qed.

Section Further.
Variable E : env.
Variable O : opts.
Variables p a b : str.
Hypothesis Path : journal_path E O = Some p.
Hypothesis Start : line_start a.
Hypothesis Head : headed b.
Let Ea := holding E p a.
Let Eb := holding E p b.
Let E3 := holding E p (a ++ LF :: b).
Let here := (p, File (a ++ LF :: b) false).
(** The files included do not include the journal again. *)
Hypothesis Once : ~ reads_again (e_unicode E) (e_fs E3) here here.
Let k := Z.of_nat (count_occ Z.eq_dec a LF) + 1.

Let P (q : str) : Prop := exists q0 f0 l, (here = (q0, f0) \/ reads_again (e_unicode E) (e_fs E3) here (q0, f0)) /\
  In (Line l) (file_lines (f_bytes f0)) /\ included (e_unicode E) q0 l = Some q.
Lemma P3_reads : forall q f, P q -> e_fs E3 q = Some f -> reads_again (e_unicode E) (e_fs E3) here (q, f).
Proof.
  intros q f (q0 & f0 & l & [R|R] & I & Q) F.
  - unfold here in R. injection R as <- <-. exists l, q, f. split; [exact I|]. split; [exact Q|]. split; [exact F|constructor].
  - destruct R as (l1 & p1 & f1 & I1 & Q1 & F1 & R). exists l1, p1, f1. split; [exact I1|]. split; [exact Q1|]. split; [exact F1|]. econstructor; eauto.
Qed.
Lemma P3_closed : closed (e_unicode E) (e_fs E3) P.
Proof. intros q f l q' Pq F I Q. exists q, f, l. split; [right; now apply P3_reads|auto]. Qed.
Lemma P3_same : forall x q, P q -> e_fs E3 q = e_fs (holding E p x) q.
Proof.
  intros x q Pq. apply holding_off. intros ->. apply Once. apply P3_reads; [exact Pq|]. unfold E3. now rewrite holding_at.
Qed.
Lemma part_stream : forall x, incl (file_lines x) (file_lines (a ++ LF :: b)) -> stream (holding E p x) O = trace (e_unicode E) (e_fs E3) (e_depth E) p (File x false).
Proof.
  intros x Sub. rewrite (holding_stream E O p Path x). unfold trace, parse.
  assert (R : forall st, run_file (e_unicode E) (e_fs E3) (Some rec_th) (Some rec_ph) (e_depth E) p (File x false) st =
    run_file (e_unicode E) (e_fs (holding E p x)) (Some rec_th) (Some rec_ph) (e_depth E) p (File x false) st).
  { intro st. destruct (e_depth E) as [|d]; cbn [run_file f_bad f_bytes]; [reflexivity|]. apply lexLines_within. intros l q st' I Q.
    assert (Pq : P q) by (exists p, (File (a ++ LF :: b) false), l; split; [now left|]; split; [now apply Sub|exact Q]).
    rewrite <- (P3_same x q Pq). destruct (e_fs E3 q) as [g|] eqn:G; [|reflexivity].
    now rewrite (run_file_within (e_unicode E) (e_fs E3) (e_fs (holding E p x)) (Some rec_th) (Some rec_ph) P P3_closed (P3_same x) d q g st' Pq G). }
  now rewrite R.
Qed.

(** A good journal written before another: the entries of both in order, up to
    the first mistake of the second, which is the same one further down. *)
Theorem C136_further : snd (stream Ea O) = SOk ->
  fst (stream E3 O) = fst (stream Ea O) ++ fst (stream Eb O) /\ further k (snd (stream Eb O)) (snd (stream E3 O)).
Proof.
  unfold Ea, Eb. rewrite (part_stream a), (part_stream b).
  2-3: intros l I; rewrite (joined_lines a b Start); apply in_app_iff; [now left + (right; now right)].
  intro Ok. rewrite (holding_stream E O p Path (a ++ LF :: b) : stream E3 O = _).
  unfold k. rewrite <- (lines_counted a Start). now apply trace_further.
Qed.

(** What print, accounts and payees say of it. *)
Theorem C136_message : forall L help_text library argv c fs h n e, asks argv c O false -> c = Print \/ c = Accounts \/ c = Payees ->
  sane_clock E -> orders E -> filters_for E (o_args O) fs -> flags_ok E O (txns 0 (fst (stream Eb O))) -> flags_ok E O (txns 0 (fst (stream E3 O))) ->
  snd (stream Ea O) = SOk -> snd (stream Eb O) = SErr (EErrorAt (EAt h n e)) ->
  exists what, p_out (gledger Eb L help_text library argv) = lit "error at " ++ h ++ lit ":" ++ itoa n ++ what /\
               p_out (gledger E3 L help_text library argv) = lit "error at " ++ h ++ lit ":" ++ itoa (n + k) ++ what.
Proof.
  intros L help_text library argv c fs h n e As V C Or Fs Fb F3 Ok Bad. destruct (C136_further Ok) as [_ Fu]. rewrite Bad in Fu. cbn in Fu.
  assert (Fx : forall x, filters_for (holding E p x) (o_args O) fs) by (intro x; apply makeFilters_spec; apply makeFilters_spec in Fs; exact Fs).
  destruct (C77_listing_partial Eb L help_text library argv c O fs As V C Or (Fx _) Fb) as [_ Hb]. specialize (Hb _ Bad).
  destruct (C77_listing_partial E3 L help_text library argv c O fs As V C Or (Fx _) F3) as [_ H3]. specialize (H3 _ Fu).
  exists (nl ++ err_text L e ++ [10]). rewrite Hb, H3. cbn [err_text]. now rewrite <- !app_assoc.
Qed.
End Further.

Definition good_text : str := lit "include k" ++ [LF] ++ lit "2021-01-01 A" ++ [LF] ++ lit "  x  $1" ++ [LF] ++ lit "  y" ++ [LF].
Definition wrong_text : str := lit "2021-01-02 B" ++ [LF] ++ lit "  x  $1x" ++ [LF] ++ lit "  y" ++ [LF].
Example C136_example : let E := env1 [(lit "k", spend_text)] in let O := opts0 "j" in let at_ x := holding E (lit "j") x in
  let here := (lit "j", File (good_text ++ LF :: wrong_text) false) in let L := fun _ : err => lit "?" in
  let says x := p_out (gledger (at_ x) L (fun _ => []) (fun _ => Result [] None) [lit "-f"; lit "j"; lit "print"]) in
  journal_path E O = Some (lit "j") /\ line_start good_text /\ headed wrong_text /\
  ~ reads_again (e_unicode E) (e_fs (at_ (good_text ++ LF :: wrong_text))) here here /\
  asks [lit "-f"; lit "j"; lit "print"] Print O false /\ sane_clock E /\ orders E /\ filters_for E (o_args O) [] /\
  flags_ok E O (txns 0 (fst (stream (at_ wrong_text) O))) /\ flags_ok E O (txns 0 (fst (stream (at_ (good_text ++ LF :: wrong_text)) O))) /\
  snd (stream (at_ good_text) O) = SOk /\ count_occ Z.eq_dec good_text LF = 4%nat /\
  snd (stream (at_ wrong_text) O) = SErr (EErrorAt (EAt (lit "j") 2 (EParsingAmount (EParseInt (lit "1x"))))) /\
  snd (stream (at_ (good_text ++ LF :: wrong_text)) O) = SErr (EErrorAt (EAt (lit "j") 7 (EParsingAmount (EParseInt (lit "1x"))))) /\
  says wrong_text = lit "error at j:2" ++ nl ++ lit "error parsing amount: ?" ++ nl /\
  says (good_text ++ LF :: wrong_text) = lit "error at j:7" ++ nl ++ lit "error parsing amount: ?" ++ nl.
Proof.
  cbn zeta. split; [reflexivity|]. split; [right; eexists; unfold good_text; rewrite !app_assoc; reflexivity|].
  split; [eexists _, _; split; [reflexivity|right; vm_compute; split; discriminate]|]. split.
  { intros (l & p & f & I & Q & F & R). cbn [fst snd f_bytes] in *.
    assert (p = lit "k") as ->.
    { revert I Q. assert (X : file_lines (good_text ++ LF :: wrong_text) = map Line [lit "include k"; lit "2021-01-01 A"; lit "  x  $1"; lit "  y"; []; lit "2021-01-02 B"; lit "  x  $1x"; lit "  y"]) by (vm_compute; reflexivity).
      rewrite X. intros I Q. cbn [map In] in I. repeat (destruct I as [I|I]; [injection I as <-; vm_compute in Q; first [discriminate Q|injection Q as <-; reflexivity]|]). destruct I. }
    assert (f = File spend_text false) as -> by (vm_compute in F; injection F as <-; vm_compute; reflexivity).
    assert (Only : forall z, FlatSpec.reads U0 (e_fs (holding (env1 [(lit "k", spend_text)]) (lit "j") (good_text ++ LF :: wrong_text))) (lit "k", File spend_text false) z -> z = (lit "k", File spend_text false)).
    { intros z R0. induction R0 as [|q g l2 p' f' _ IH I2 Q2 _]; [reflexivity|]. exfalso. injection IH as -> ->. cbn [f_bytes] in I2. revert I2.
      assert (X : file_lines spend_text = map Line [lit "2021-03-05 C"; lit "  Expenses:Food  $2"; lit "  w"]) by (vm_compute; reflexivity).
      rewrite X. intro I2. cbn [map In] in I2. repeat (destruct I2 as [I2|I2]; [injection I2 as <-; vm_compute in Q2; discriminate Q2|]). destruct I2. }
    apply Only in R. discriminate R. }
  split; [apply C87_example|]. split; [apply env1_clock|]. split; [apply env1_orders|]. split; [apply makeFilters_spec; reflexivity|].
  split; [apply (flags_free _ [])|]. split; [apply (flags_free _ [])|].
  vm_compute. repeat split.
Qed.

(** A text that begins otherwise may fail in another way. *)
Example C136_header_example : let E := env1 [] in let O := opts0 "j" in let at_ x := holding E (lit "j") x in
  snd (stream (at_ spend_text) O) = SOk /\
  snd (stream (at_ (lit "  x  $1")) O) = SErr (EErrorAt (EAt (lit "j") 1 EExpectedAccount)) /\
  snd (stream (at_ (spend_text ++ LF :: lit "  x  $1")) O) = SPanic.
Proof. vm_compute. repeat split. Qed.
