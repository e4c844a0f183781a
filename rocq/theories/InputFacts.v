(** * Where reading stops, which file is named, which lines panic *)
From Verif Require Import Base BaseFacts Utf8 Utf8Facts Unicode GoTime Strconv Journal Lexer LexSpec
  LexerFacts LexText Parser ParserFacts FlatSpec FlatFacts Spec JournalFacts BuilderFacts LineFacts IncludeFacts TextSpec ReadFacts WriteFacts.

(** ** Directories *)
Lemma dir_of_app : forall dir base, (dir = [] \/ last dir 0 = 47) -> ~ In 47 base -> dir_of (dir ++ base) = dir.
Proof.
  intros dir base D B. unfold dir_of.
  match goal with |- match ?f _ with _ => _ end = _ => set (upto := f) end.
  assert (upto base = None) as N.
  { clear D. induction base as [|c base IH]; [reflexivity|]. cbn. rewrite IH by (intro; apply B; now right).
    destruct (Z.eqb_spec c 47); [|reflexivity]. subst. exfalso. apply B. now left. }
  assert (forall c s, upto (c :: s) = match upto s with Some d => Some (c :: d) | None => if c =? 47 then Some [c] else None end) as U1
    by reflexivity.
  destruct D as [->|D]; [cbn [app]; now rewrite N|].
  destruct dir as [|x dir]; [cbn in D; discriminate|].
  assert (upto ((x :: dir) ++ base) = Some (x :: dir)) as ->; [|reflexivity].
  revert x D. induction dir as [|y dir IH]; intros x D; cbn [app].
  - rewrite U1, N. cbn in D. subst x. reflexivity.
  - rewrite U1. specialize (IH y). cbn [app] in IH. rewrite IH; [reflexivity|exact D].
Qed.

Section Facts.
Variable U : unicode.
Variable fs : str -> option file.

(** ** Inlining an included file *)
Definition line_exp (inc : str -> list fline) (hint : str) (x : line) : list fline :=
  match x with
  | LongLine => [FStop SFatal]
  | Line l => match included U hint l with Some p => inc p | None => [FLine l] end
  end.

Lemma expand_lines_app : forall inc hint bad ls1 ls2, ~ In LongLine ls1 ->
  expand_lines U inc hint bad (ls1 ++ ls2) = flat_map (line_exp inc hint) ls1 ++ expand_lines U inc hint bad ls2.
Proof.
  intros inc hint bad. induction ls1 as [|[l|] ls1 IH]; intros ls2 N; [reflexivity| |exfalso; apply N; now left].
  cbn [app expand_lines flat_map line_exp]. rewrite IH by (intro; apply N; now right).
  destruct (included U hint l); cbn [app]; [now rewrite app_assoc|reflexivity].
Qed.

Lemma included_dir : forall h1 h2 l, dir_of h1 = dir_of h2 -> included U h1 l = included U h2 l.
Proof.
  intros h1 h2 l H. unfold included. rewrite !lexLine_spec. unfold lex_runes, include_line. now rewrite H.
Qed.

Lemma expand_deeper : forall d hint f, no_stop (expand U fs d hint f) ->
  expand U fs (Datatypes.S d) hint f = expand U fs d hint f.
Proof.
  assert (forall inc inc' hint bad ls, (forall p, no_stop (inc p) -> inc' p = inc p) ->
    no_stop (expand_lines U inc hint bad ls) -> expand_lines U inc' hint bad ls = expand_lines U inc hint bad ls) as K.
  { intros inc inc' hint bad ls E. induction ls as [|[l|] ls IH]; intro NS; cbn [expand_lines] in *; [reflexivity| |reflexivity].
    destruct (included U hint l) as [p|].
    - rewrite E, IH; [reflexivity| |]; intros r I; apply (NS r), in_or_app; auto.
    - rewrite IH; [reflexivity|]. intros r I. apply (NS r). now right. }
  induction d as [|d IH]; intros hint f NS.
  - cbn [expand] in *. apply K; [|exact NS]. intros p NP. exfalso. apply (NP SDeep). now left.
  - change (expand U fs (Datatypes.S (Datatypes.S d)) hint f) with
      (expand_lines U (fun path => match fs path with None => [FStop (SErr (EOpen path))] | Some f' => expand U fs (Datatypes.S d) path f' end)
         hint (f_bad f) (file_lines (f_bytes f))).
    change (expand U fs (Datatypes.S d) hint f) with
      (expand_lines U (fun path => match fs path with None => [FStop (SErr (EOpen path))] | Some f' => expand U fs d path f' end)
         hint (f_bad f) (file_lines (f_bytes f))) in *.
    apply K; [|exact NS]. intros p NP. destruct (fs p); [now apply IH|reflexivity].
Qed.

(** Lines of a file whose bytes end a line, without the read error. *)
Lemma file_lines_blank : forall g, line_start g -> file_lines (g ++ [LF]) = file_lines g ++ [Line []].
Proof.
  intros g L. rewrite file_lines_start by assumption. reflexivity.
Qed.

Lemma inline_include : forall d hint path before incl after g,
  line_start before -> line_start g -> ~ In LF incl -> Z.of_nat (length incl) < 4096 ->
  included U hint (chop_cr incl) = Some path -> fs path = Some (File g false) -> dir_of path = dir_of hint ->
  no_stop (expand U fs (Datatypes.S d) hint (File (before ++ incl ++ LF :: after) false)) ->
  expand U fs (Datatypes.S d) hint (File (before ++ g ++ LF :: after) false) =
  expand U fs (Datatypes.S d) hint (File (before ++ incl ++ LF :: after) false).
Proof.
  intros d hint path before incl after g LB LG NI LI IE FE DE NS.
  assert (file_lines (before ++ incl ++ LF :: after) = file_lines before ++ Line (chop_cr incl) :: file_lines after) as E1.
  { pose proof (file_lines_inserted before incl after LB NI LI) as X. cbn [app] in X. exact X. }
  assert (file_lines (before ++ g ++ LF :: after) = file_lines before ++ file_lines g ++ Line [] :: file_lines after) as E2.
  { rewrite file_lines_start by assumption. f_equal. rewrite file_lines_start by assumption. reflexivity. }
  cbn [expand f_bytes f_bad] in *. rewrite E1 in NS. rewrite E1, E2.
  set (inc := fun path => match fs path with None => [FStop (SErr (EOpen path))] | Some f' => expand U fs d path f' end) in *.
  destruct (expand_lines_no_stop _ _ _ _ _ NS) as (_ & NL & _).
  assert (~ In LongLine (file_lines before)) as NLB by (intro X; apply NL, in_or_app; now left).
  rewrite expand_lines_app in NS by assumption.
  rewrite (expand_lines_app inc hint false (file_lines before) (Line (chop_cr incl) :: file_lines after)) by assumption.
  rewrite (expand_lines_app inc hint false (file_lines before)) by assumption.
  f_equal. cbn [expand_lines] in *. rewrite IE in NS. rewrite IE.
  assert (no_stop (inc path)) as NP. { intros r I. apply (NS r). apply in_or_app. right. apply in_or_app. now left. }
  assert (inc path = expand U fs d path (File g false)) as IP by (unfold inc; now rewrite FE).
  rewrite IP in NP. rewrite IP.
  assert (~ In LongLine (file_lines g)) as NLG by (apply no_stop_include in NP; apply NP).
  rewrite expand_lines_app by assumption.
  assert (expand U fs d path (File g false) = flat_map (line_exp inc hint) (file_lines g) ++ [FLine []]) as EP.
  { rewrite <- expand_deeper by assumption. cbn [expand f_bytes f_bad]. fold inc.
    rewrite <- (app_nil_r (file_lines g)) at 1. rewrite expand_lines_app by assumption. cbn [expand_lines]. f_equal.
    apply flat_map_ext. intros [l|]; cbn [line_exp]; [|reflexivity]. now rewrite (included_dir path hint) by assumption. }
  rewrite EP, <- app_assoc. now f_equal.
Qed.

(** ** Paths handed to handlers are paths of files read *)
Definition event_path (ev : event) : str := match ev with ETxn _ p => p | EPer _ p => p end.

Section Paths.
Variable P : str -> Prop.
Notation rstate := (pstate (list event)).

Definition named (st : rstate) : Prop :=
  ps_files st <> [] /\ Forall P (ps_files st) /\ Forall (fun ev => P (event_path ev)) (ps_s st).

Lemma named_last : forall st, named st -> P (last (ps_files st) []).
Proof.
  intros st (N & F & _). destruct (exists_last N) as [l [x E]]. rewrite E, last_last, Forall_app in *.
  destruct F as [_ F]. now inversion F.
Qed.

Lemma named_set_b : forall st b, named st -> named (set_b st b).
Proof. intros st b H. exact H. Qed.

Definition kept_named (x : rstate * status) : Prop :=
  Forall (fun ev => P (event_path ev)) (ps_s (fst x)) /\ (snd x = SOk -> named (fst x)).

Lemma named_kept : forall st r, named st -> kept_named (st, r).
Proof. intros st r H. split; [apply H|auto]. Qed.

Lemma kept_bind : forall x k w, kept_named x -> (forall st, named st -> kept_named (k st)) ->
  (forall r, w r = SOk -> r = SOk) -> kept_named (bindr x k w).
Proof.
  intros [st r] k w [E N] K W. cbn [fst snd] in *. unfold bindr. destruct r; try (split; [exact E|]; cbn; intro X; apply W in X; discriminate).
  apply K. auto.
Qed.

Lemma endTransaction_named : forall st, named st -> kept_named (endTransaction (Some rec_th) (Some rec_ph) st).
Proof.
  intros st H. pose proof (named_last st H) as L. pose proof H as (N & F & E). unfold endTransaction.
  destruct (b_type (ps_b st)).
  - destruct (b_txn (ps_b st)) as [t|]; [|now apply named_kept].
    destruct (endNormalTransaction (ps_b st) t) as [t' [e|]]; cbn; [now apply named_kept|].
    apply named_kept. split; [assumption|]. split; [assumption|]. cbn. apply Forall_app. split; [assumption|]. now repeat constructor.
  - destruct (b_ptxn (ps_b st)) as [t|]; [|now apply named_kept].
    destruct (endNormalTransaction (ps_b st) (pt_txn t)) as [t' [e|]]; cbn; [now apply named_kept|].
    apply named_kept. split; [assumption|]. split; [assumption|]. cbn. apply Forall_app. split; [assumption|]. now repeat constructor.
Qed.

Lemma build_in_named : forall st i c, named st -> kept_named (build_in st i c).
Proof. intros st i c H. unfold build_in. destruct (build (ps_b st) i c); now apply named_kept. Qed.

Lemma wrap_ok : forall f r, wrap_err f r = SOk -> r = SOk.
Proof. intros f []; cbn; congruence. Qed.

Definition inc_named (inc : @includer (list event)) (p : str) : Prop :=
  forall st, named st -> kept_named (let '(st', r) := inc p (set_files st (ps_files st ++ [p])) in
    match r with SOk => (set_files st' (firstn 1 (ps_files st')), SOk) | _ => (st', r) end).

Lemma parseItem_named : forall inc st i c, (i = includeItem -> inc_named inc (encode c)) ->
  named st -> kept_named (parseItem (Some rec_th) (Some rec_ph) inc st i c).
Proof.
  intros inc st i c HI H. destruct i; cbn [parseItem]; try now apply build_in_named.
  - now apply endTransaction_named.
  - now apply (HI eq_refl).
  - apply (kept_bind _ (fun st1 => let '(st2, r2) := build_in (set_b st1 (beginTransaction (ps_b st1) normalTransaction)) dateItem c in
      (st2, wrap_err EParsingDate r2)) (fun r => r)); [now apply endTransaction_named| |auto].
    intros st1 H1. pose proof (build_in_named (set_b st1 (beginTransaction (ps_b st1) normalTransaction)) dateItem c H1) as B.
    destruct (build_in _ _ _) as [st2 r2]. destruct B as [B1 B2]. split; [exact B1|]. cbn. intro X. now apply B2, (wrap_ok EParsingDate).
  - apply (kept_bind _ (fun st1 => let '(st2, r2) := build_in (set_b st1 (beginTransaction (ps_b st1) periodicTransaction)) periodItem c in
      (st2, wrap_err EParsingPeriod r2)) (fun r => r)); [now apply endTransaction_named| |auto].
    intros st1 H1. pose proof (build_in_named (set_b st1 (beginTransaction (ps_b st1) periodicTransaction)) periodItem c H1) as B.
    destruct (build_in _ _ _) as [st2 r2]. destruct B as [B1 B2]. split; [exact B1|]. cbn. intro X. now apply B2, (wrap_ok EParsingPeriod).
  - now apply endTransaction_named.
Qed.

Lemma parseItems_named : forall inc items e st,
  (forall c, In (includeItem, c) items -> inc_named inc (encode c)) ->
  named st -> kept_named (parseItems (Some rec_th) (Some rec_ph) inc st items e).
Proof.
  intros inc items e. induction items as [|[i c] items IH]; intros st HI H; cbn [parseItems]; [now apply named_kept|].
  apply (kept_bind _ (fun st' => parseItems (Some rec_th) (Some rec_ph) inc st' items e) (fun r => r)); [| |auto].
  - apply parseItem_named; [|assumption]. intros -> . apply HI. now left.
  - intros st' H'. apply IH; [|assumption]. intros c' I. apply HI. now right.
Qed.

Lemma lexLines_named : forall inc hint bad ls n st,
  (forall l p, In (Line l) ls -> included U hint l = Some p -> inc_named inc p) ->
  named st -> kept_named (lexLines U (Some rec_th) (Some rec_ph) inc hint bad n ls st).
Proof.
  intros inc hint bad. induction ls as [|[l|] ls IH]; intros n st HI H; cbn [lexLines].
  - destruct bad; [now apply named_kept|]. now apply endTransaction_named.
  - destruct (lexLine U hint l) as [items e] eqn:LX.
    apply (kept_bind _ (fun st' => lexLines U (Some rec_th) (Some rec_ph) inc hint bad (n + 1) ls st') (wrap_err (EAt hint n)));
      [| |apply wrap_ok].
    + apply parseItems_named; [|assumption]. intros c I. apply (HI l); [now left|].
      unfold included. rewrite LX. destruct (lex_include_cases U hint l) as [[c' E]|[E F]].
      * rewrite E in LX. injection LX as <- <-. destruct I as [I|[]]. injection I as <-. reflexivity.
      * rewrite LX in F. cbn in F. rewrite Forall_forall in F. apply F in I. cbn in I. now destruct I.
    + intros st' H'. apply IH; [|assumption]. intros l' p I. apply HI. now right.
  - now apply named_kept.
Qed.
End Paths.

Lemma run_file_named : forall a depth b st,
  reads U fs a b -> named (fun p => exists f, reads U fs a (p, f)) st ->
  kept_named (fun p => exists f, reads U fs a (p, f)) (run_file U fs (Some rec_th) (Some rec_ph) depth (fst b) (snd b) st).
Proof.
  intros a depth. induction depth as [|d IH]; intros [hint f] st R H; cbn [run_file fst snd];
    (apply lexLines_named; [|assumption]); intros l p I E st' H'.
  - cbn. split; [apply H'|discriminate].
  - cbn beta. destruct (fs p) as [f'|] eqn:FE; [|split; [apply H'|discriminate]].
    assert (reads U fs a (p, f')) as R' by (econstructor; eassumption).
    assert (named (fun p => exists f, reads U fs a (p, f)) (set_files st' (ps_files st' ++ [p]))) as N'.
    { destruct H' as (N & F & EV). split; [cbn; destruct (ps_files st'); discriminate|]. split; [|assumption].
      cbn. apply Forall_app. split; [assumption|]. constructor; [eauto|constructor]. }
    specialize (IH (p, f') _ R' N'). cbn [fst snd] in IH.
    destruct (run_file U fs (Some rec_th) (Some rec_ph) d p f' (set_files st' (ps_files st' ++ [p]))) as [st2 r].
    destruct IH as [E1 E2]. cbn [fst snd] in *. destruct r; cbn; (split; [exact E1|]); try discriminate.
    intros _. destruct (E2 eq_refl) as (N & F & EV). split; [|split; [|assumption]].
    + cbn. destruct (ps_files st2); [congruence|]. discriminate.
    + cbn. destruct (ps_files st2); [constructor|]. inversion_clear F. now repeat constructor.
Qed.

Lemma trace_paths : forall depth hint f ev, In ev (fst (trace U fs depth hint f)) ->
  exists f', reads U fs (hint, f) (event_path ev, f').
Proof.
  intros depth hint f ev I. unfold trace, parse in I.
  assert (named (fun p => exists f', reads U fs (hint, f) (p, f')) (PS newBuilder [hint] [])) as N.
  { split; [discriminate|]. split; [|constructor]. constructor; [|constructor]. exists f. constructor. }
  pose proof (run_file_named (hint, f) depth (hint, f) (PS newBuilder [hint] []) (reads_self _ _ _) N) as [E _].
  cbn [fst snd] in E. destruct (run_file U fs (Some rec_th) (Some rec_ph) depth hint f (PS newBuilder [hint] [])) as [st r].
  cbn [fst] in *. rewrite Forall_forall in E. now apply E.
Qed.

Lemma reads_alone : forall hint f x, (forall l, In (Line l) (file_lines (f_bytes f)) -> included U hint l = None) ->
  reads U fs (hint, f) x -> x = (hint, f).
Proof.
  intros hint f x N R. induction R as [|p1 f2 l1 p2 f3 R IH I INC FS]; [reflexivity|]. injection IH as -> ->.
  rewrite (N _ I) in INC. discriminate.
Qed.

Lemma paths_alone : forall depth hint f ev, (forall l, In (Line l) (file_lines (f_bytes f)) -> included U hint l = None) ->
  In ev (fst (trace U fs depth hint f)) -> event_path ev = hint.
Proof.
  intros depth hint f ev N I. destruct (trace_paths depth hint f ev I) as (f' & R).
  apply reads_alone in R; [|assumption]. now injection R.
Qed.

(** ** Where reading stopped *)
Definition inc_of (d : nat) : str -> list fline :=
  match d with
  | O => fun _ => [FStop SDeep]
  | Datatypes.S d => fun path => match fs path with None => [FStop (SErr (EOpen path))] | Some f' => expand U fs d path f' end
  end.

(** [located d b hint f e]: reading the file [f] from the state [b] stops with
    [e], where [e] is built as the constructors say. *)
Inductive located : nat -> builder -> str -> file -> err -> Prop :=
| LocLine : forall d b hint f k l b1 es e,
    nth_error (file_lines (f_bytes f)) k = Some (Line l) -> included U hint l = None ->
    flat U (flat_map (line_exp (inc_of d) hint) (firstn k (file_lines (f_bytes f)))) b = (b1, es, SOk) ->
    snd (flat_line U l b1) = SErr e ->
    located d b hint f (EAt hint (Z.of_nat k + 1) e)
| LocOpen : forall d b hint f k l b1 es p,
    nth_error (file_lines (f_bytes f)) k = Some (Line l) -> included U hint l = Some p -> fs p = None ->
    flat U (flat_map (line_exp (inc_of (Datatypes.S d)) hint) (firstn k (file_lines (f_bytes f)))) b = (b1, es, SOk) ->
    located (Datatypes.S d) b hint f (EAt hint (Z.of_nat k + 1) (EOpen p))
| LocInclude : forall d b hint f k l b1 es p f' e,
    nth_error (file_lines (f_bytes f)) k = Some (Line l) -> included U hint l = Some p -> fs p = Some f' ->
    flat U (flat_map (line_exp (inc_of (Datatypes.S d)) hint) (firstn k (file_lines (f_bytes f)))) b = (b1, es, SOk) ->
    located d b1 p f' e ->
    located (Datatypes.S d) b hint f (EAt hint (Z.of_nat k + 1) (EErrorAt e))
| LocEnd : forall d b hint f b1 es e,
    flat U (flat_map (line_exp (inc_of d) hint) (file_lines (f_bytes f))) b = (b1, es, SOk) ->
    f_bad f = false -> snd (close_open b1) = SErr e -> located d b hint f e
| LocRead : forall d b hint f b1 es,
    flat U (flat_map (line_exp (inc_of d) hint) (file_lines (f_bytes f))) b = (b1, es, SOk) ->
    f_bad f = true -> located d b hint f (ERead hint).

Notation rstate := (pstate (list event)).

Lemma endTransaction_exact : forall st : rstate,
  snd (endTransaction (Some rec_th) (Some rec_ph) st) = snd (close_open (ps_b st)).
Proof.
  intros [b fl s]. unfold endTransaction, close_open. cbn [ps_b ps_files ps_s].
  destruct (b_type b).
  - destruct (b_txn b) as [t|]; [|reflexivity]. destruct (endNormalTransaction b t) as [t' [e|]]; reflexivity.
  - destruct (b_ptxn b) as [t|]; [|reflexivity]. destruct (endNormalTransaction b (pt_txn t)) as [t' [e|]]; reflexivity.
Qed.

Lemma fsim_ok : forall (st : rstate) A F, fsim st A F -> snd A = SOk -> exists es, F = (ps_b (fst A), es, SOk).
Proof.
  intros st [st' r] [[b es] r'] (evs & E1 & E2 & E3 & E4) H. cbn [fst snd] in *. subst r. symmetry in E4.
  apply strip_ok in E4. subst. eauto.
Qed.

Lemma parseItem_exact : forall inc i c (st : rstate), i <> includeItem ->
  snd (parseItem (Some rec_th) (Some rec_ph) inc st i c) = snd (flat_item (ps_b st) i c).
Proof.
  intros inc i c st N.
  assert (forall ty f, snd (bindr (endTransaction (Some rec_th) (Some rec_ph) st)
       (fun st1 => let '(st2, r2) := build_in (set_b st1 (beginTransaction (ps_b st1) ty)) i c in
                   (st2, wrap_err f r2)) (fun r => r)) =
    snd (fbind (close_open (ps_b st)) (fun b' => rewrap f (built (beginTransaction b' ty) i c)))) as K.
  { intros ty f. pose proof (endTransaction_exact st) as X. pose proof (endTransaction_flat st) as Y.
    destruct (endTransaction (Some rec_th) (Some rec_ph) st) as [st1 r1].
    destruct (close_open (ps_b st)) as [[b es] r]. cbn in X. subst r1.
    destruct Y as (evs & _ & _ & E3 & _). cbn in E3. destruct r; try reflexivity. cbn [bindr fbind].
    rewrite E3. unfold build_in, built, set_b. cbn [ps_b].
    destruct (build (beginTransaction b ty) i c); reflexivity. }
  assert (snd (build_in st i c) = snd (built (ps_b st) i c)) as B
    by (unfold build_in, built; destruct (build (ps_b st) i c); reflexivity).
  destruct i; cbn [parseItem flat_item]; try congruence; try exact B; try apply endTransaction_exact.
  - apply (K normalTransaction EParsingDate).
  - apply (K periodicTransaction EParsingPeriod).
Qed.

Lemma parseItems_exact : forall inc items e (st : rstate),
  Forall (fun x => fst x <> includeItem /\ fst x <> eofItem) items ->
  snd (parseItems (Some rec_th) (Some rec_ph) inc st items e) = snd (flat_items (ps_b st) items e).
Proof.
  intros inc items e. induction items as [|[i c] items IH]; intros st F; cbn [parseItems flat_items]; [reflexivity|].
  inversion F as [|? ? [F1 _] F2]; subst. cbn in F1.
  pose proof (parseItem_exact inc i c st F1) as X. pose proof (parseItem_flat inc i c st F1) as Y.
  destruct (parseItem (Some rec_th) (Some rec_ph) inc st i c) as [st' r].
  destruct (flat_item (ps_b st) i c) as [[b es] r']. cbn in X. subst r'.
  destruct Y as (evs & _ & _ & E3 & _). cbn in E3. destruct r; try reflexivity. cbn [fbind].
  rewrite IH, E3 by assumption. destruct (flat_items b items e) as [[? ?] ?]. reflexivity.
Qed.

Lemma inc_of_stops : forall d p, stops_fail (inc_of d p).
Proof.
  intros [|d] p; cbn; [solve_f|]. destruct (fs p); [apply expand_stops|solve_f].
Qed.

Lemma expand_inc_of : forall d hint f, expand U fs d hint f = expand_lines U (inc_of d) hint (f_bad f) (file_lines (f_bytes f)).
Proof. now intros [|d] hint f. Qed.

Lemma line_exp_stops : forall d hint ls, stops_fail (flat_map (line_exp (inc_of d) hint) ls).
Proof.
  intros d hint ls. induction ls as [|x ls IH]; [constructor|]. cbn. apply Forall_app. split; [|assumption].
  destruct x as [l|]; cbn; [|solve_f]. destruct (included U hint l); [apply inc_of_stops|solve_f].
Qed.

(** The lines of a file, up to the failing one. *)
Lemma lexLines_located : forall d inc hint f,
  (forall p st, fsim st (inc p st) (flat U (inc_of d p) (ps_b st))) ->
  (forall p st e, snd (inc p st) = SErr e ->
     match d with
     | O => False
     | Datatypes.S d' => match fs p with None => e = EOpen p | Some f' => exists e', e = EErrorAt e' /\ located d' (ps_b st) p f' e' end
     end) ->
  forall ls done b es st st' e,
  file_lines (f_bytes f) = done ++ ls ->
  flat U (flat_map (line_exp (inc_of d) hint) done) b = (ps_b st, es, SOk) ->
  lexLines U (Some rec_th) (Some rec_ph) inc hint (f_bad f) (Z.of_nat (length done) + 1) ls st = (st', SErr e) ->
  located d b hint f e.
Proof.
  intros d inc hint f IF IL. induction ls as [|[l|] ls IH]; intros done b es st st' e FL FD H; cbn [lexLines] in H.
  - rewrite app_nil_r in FL. destruct (f_bad f) eqn:BAD.
    + injection H as <- <-. rewrite <- FL in FD. eapply LocRead; eassumption.
    + cbn [parseItem] in H. pose proof (endTransaction_exact st) as X. rewrite H in X. cbn in X.
      rewrite <- FL in FD. eapply LocEnd; [eassumption|assumption|]. now rewrite <- X.
  - destruct (lexLine U hint l) as [items fin] eqn:LX.
    assert (nth_error (file_lines (f_bytes f)) (length done) = Some (Line l)) as NT.
    { rewrite FL, nth_error_app2, Nat.sub_diag by lia. reflexivity. }
    assert (firstn (length done) (file_lines (f_bytes f)) = done) as FN.
    { rewrite FL, firstn_app, Nat.sub_diag, firstn_all. cbn. now rewrite app_nil_r. }
    destruct (parseItems (Some rec_th) (Some rec_ph) inc st items fin) as [st1 r] eqn:PI.
    assert (r = SOk -> exists es1, flat U (line_exp (inc_of d) hint (Line l)) (ps_b st) = (ps_b st1, es1, SOk)) as OK.
    { intros ->. cbn [line_exp]. unfold included. rewrite LX.
      destruct (lex_include_cases U hint l) as [[c E]|[E F]].
      - rewrite E in LX. injection LX as <- <-. cbn [parseItems parseItem] in PI.
        specialize (IF (encode c) (set_files st (ps_files st ++ [encode c]))).
        destruct (inc (encode c) (set_files st (ps_files st ++ [encode c]))) as [st2 r2].
        destruct r2; try discriminate. injection PI as <-. cbn [set_files ps_b] in IF.
        apply fsim_ok in IF; [|reflexivity]. exact IF.
      - assert (match items with [(includeItem, path)] => Some (encode path) | _ => None end = None) as NI.
        { rewrite LX in F. cbn in F. destruct items as [|[[] ?] [|]]; try reflexivity.
          apply Forall_inv in F as [F _]. now elim F. }
        replace (let (l0, _) := (items, fin) in match l0 with [(includeItem, path)] => Some (encode path) | _ => None end) with (@None str).
        cbn [flat]. unfold flat_line. rewrite <- E, LX. rewrite LX in F. cbn [fst] in F.
        pose proof (parseItems_flat inc items fin st F) as Y. rewrite PI in Y. apply fsim_ok in Y as [es1 Y]; [|reflexivity].
        cbn [fst] in Y. rewrite Y. cbn. rewrite app_nil_r. eauto. }
    destruct r; try discriminate.
    + destruct (OK eq_refl) as (es1 & OK').
      eapply (IH (done ++ [Line l])); [now rewrite <- app_assoc| |].
      * rewrite flat_map_app, flat_app by apply line_exp_stops. rewrite FD. cbn [flat_map fbind].
        rewrite app_nil_r. rewrite OK'. reflexivity.
      * replace (Z.of_nat (length (done ++ [Line l])) + 1) with (Z.of_nat (length done) + 1 + 1)
          by (rewrite app_length; cbn [length]; lia).
        exact H.
    + injection H as <- <-. destruct (lex_include_cases U hint l) as [[c E]|[E F]].
      * assert (included U hint l = Some (encode c)) as IE by (unfold included; now rewrite E).
        rewrite E in LX. injection LX as <- <-. cbn [parseItems parseItem] in PI.
        specialize (IL (encode c) (set_files st (ps_files st ++ [encode c]))).
        destruct (inc (encode c) (set_files st (ps_files st ++ [encode c]))) as [st2 r2].
        destruct r2; try discriminate. cbn in PI. injection PI as <- <-. specialize (IL _ eq_refl). cbn [ps_b set_files] in IL.
        rewrite <- FN in FD. destruct d as [|d']; [contradiction|].
        destruct (fs (encode c)) as [f'|] eqn:FE.
        -- destruct IL as (e' & -> & L). eapply LocInclude; eassumption.
        -- subst. eapply LocOpen; eassumption.
      * assert (included U hint l = None) as IE.
        { unfold included. rewrite LX in *. cbn [fst] in F. destruct items as [|[[] ?] [|]]; try reflexivity.
          apply Forall_inv in F as [F _]. now elim F. }
        rewrite LX in F. cbn [fst] in F.
        pose proof (parseItems_exact inc items fin st F) as X. rewrite PI in X. cbn in X.
        rewrite <- FN in FD. eapply LocLine; [eassumption|assumption|eassumption|].
        unfold flat_line. rewrite <- E, LX. now rewrite <- X.
  - discriminate.
Qed.

Lemma run_file_located : forall d hint f st st' e,
  run_file U fs (Some rec_th) (Some rec_ph) d hint f st = (st', SErr e) -> located d (ps_b st) hint f e.
Proof.
  induction d as [|d IH]; intros hint f st st' e H; cbn [run_file] in H.
  - refine (lexLines_located 0 _ hint f _ _ (file_lines (f_bytes f)) [] (ps_b st) [] st st' e eq_refl eq_refl H).
    + intros p st0. exists []. rewrite app_nil_r. auto.
    + intros p st0 e0 X. discriminate.
  - refine (lexLines_located (Datatypes.S d) _ hint f _ _ (file_lines (f_bytes f)) [] (ps_b st) [] st st' e eq_refl eq_refl H).
    + intros p st0. cbn [inc_of]. destruct (fs p) as [f'|]; [|exists []; rewrite app_nil_r; auto].
      pose proof (run_file_flat U fs d p f' st0) as Y.
      destruct (run_file U fs (Some rec_th) (Some rec_ph) d p f' st0) as [st2 r].
      destruct (flat U (expand U fs d p f') (ps_b st0)) as [[b es] r'].
      destruct Y as (evs & E1 & E2 & E3 & E4). exists evs. cbn [fst snd] in *. rewrite strip_wrap_error. auto.
    + intros p st0 e0 X. cbv beta in X. destruct (fs p) as [f'|].
      * destruct (run_file U fs (Some rec_th) (Some rec_ph) d p f' st0) as [st2 r] eqn:R. cbn in X.
        destruct r; try discriminate. injection X as <-. eexists. split; [reflexivity|]. eapply IH; eassumption.
      * cbn in X. now injection X as <-.
Qed.

Lemma trace_located : forall d hint f e, snd (trace U fs d hint f) = SErr e ->
  exists e', e = EErrorAt e' /\ located d newBuilder hint f e'.
Proof.
  intros d hint f e H. unfold trace, parse in H.
  destruct (run_file U fs (Some rec_th) (Some rec_ph) d hint f (PS newBuilder [hint] [])) as [st r] eqn:R.
  cbn in H. destruct r; try discriminate. injection H as <-. eexists. split; [reflexivity|].
  apply run_file_located in R. exact R.
Qed.
End Facts.
