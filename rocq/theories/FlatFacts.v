(** * The parser reads the flat list of lines *)
From Verif Require Import Base BaseFacts Utf8 Utf8Facts Unicode GoTime Strconv Journal Lexer LexSpec
  LexerFacts Parser ParserFacts FlatSpec.

Lemma fbind_assoc : forall x k1 k2,
  fbind (fbind x k1) k2 = fbind x (fun b => fbind (k1 b) k2).
Proof.
  intros [[b es] []] k1 k2; cbn; try reflexivity.
  destruct (k1 b) as [[b1 es1] []]; cbn; try reflexivity.
  destruct (k2 b1) as [[b2 es2] r2]. now rewrite app_assoc.
Qed.

Lemma fbind_ext : forall x k1 k2, (forall b, k1 b = k2 b) -> fbind x k1 = fbind x k2.
Proof. intros [[b es] []] k1 k2 H; cbn; try reflexivity. now rewrite H. Qed.

Lemma fbind_ret : forall x, fbind x (fun b => (b, [], SOk)) = x.
Proof. intros [[b es] []]; cbn; rewrite ?app_nil_r; reflexivity. Qed.

Ltac solve_f := repeat (apply Forall_cons || apply Forall_nil || split); try discriminate.

(** A list of lines is well-formed if its stops are failures. *)
Definition stops_fail (ls : list fline) : Prop := Forall (fun x => x <> FStop SOk) ls.

Lemma flat_app : forall U ls1 ls2 b, stops_fail ls1 ->
  flat U (ls1 ++ ls2) b = fbind (flat U ls1 b) (flat U ls2).
Proof.
  induction ls1 as [|[l|r] ls1 IH]; intros ls2 b F; cbn [app flat]; inversion F; subst.
  - cbn. now destruct (flat U ls2 b) as [[? ?] ?].
  - rewrite fbind_assoc. apply fbind_ext. auto.
  - destruct r; try reflexivity. congruence.
Qed.

Section Facts.
Variable U : unicode.
Variable fs : str -> option file.

Lemma expand_lines_stops : forall inc hint bad ls, (forall p, stops_fail (inc p)) ->
  stops_fail (expand_lines U inc hint bad ls).
Proof.
  intros inc hint bad ls H. induction ls as [|[l|] ls IH]; cbn.
  - destruct bad; (constructor; [discriminate|constructor]).
  - destruct (included U hint l); [apply Forall_app; split; [apply H|apply IH]|].
    constructor; [discriminate|assumption].
  - constructor; [discriminate|constructor].
Qed.

Lemma expand_stops : forall depth hint f, stops_fail (expand U fs depth hint f).
Proof.
  induction depth as [|d IH]; intros hint f; cbn; apply expand_lines_stops; intro p.
  - solve_f.
  - destruct (fs p); [apply IH|solve_f].
Qed.

(** An item list made of an include directive, or not containing any. *)
Lemma lex_include_cases : forall hint l,
  (exists c, lexLine U hint l = ([(includeItem, c)], None)) \/
  (lexLine U hint l = lexLine U [] l /\
   Forall (fun x => fst x <> includeItem /\ fst x <> eofItem) (fst (lexLine U hint l))).
Proof.
  intros hint l. rewrite !lexLine_spec. unfold lex_runes.
  destruct (decode l) as [|r rs];
    [right; split; [reflexivity|solve_f]|].
  destruct (isCommentIndicator r); [right; split; [reflexivity|constructor]|].
  destruct (r =? c_i).
  { unfold include_line. destruct (until_space (r :: rs)) as [d rs1].
    destruct (negb (str_eqb d (lit "include"))); [right; split; [reflexivity|constructor]|].
    destruct (space_width rs1 =? 0); [right; split; [reflexivity|constructor]|].
    destruct (fst (to_tab [] (drop_space rs1))); [right; split; [reflexivity|constructor]|].
    left. eexists. reflexivity. }
  right. split; [reflexivity|].
  destruct (r =? c_tilde).
  { unfold period_line. destruct (space_width rs =? 0); solve_f. }
  destruct (isNumber U r).
  { unfold header_line. destruct (until_space (r :: rs)) as [d rs1].
    destruct (match drop_space rs1 with
              | [] => ([], [])
              | r0 :: rs' => if (r0 =? c_bang) || (r0 =? c_star) then ([(stateItem, [r0])], drop_space rs')
                             else ([], drop_space rs1) end) as [state rs3] eqn:E.
    assert (Forall (fun x => fst x <> includeItem /\ fst x <> eofItem) state).
    { destruct (drop_space rs1); [injection E as <- <-; constructor|].
      destruct ((z =? c_bang) || (z =? c_star)); injection E as <- <-; solve_f. }
    destruct (to_tab [] rs3) as [payee rs4]. cbn [fst].
    repeat (apply Forall_app; split); try (solve_f); try assumption.
    destruct (trimSpaceStart rs4); solve_f. }
  destruct (_ || _); [|constructor].
  unfold posting_line. destruct (drop_space rs); [constructor|].
  destruct (isCommentIndicator z); [solve_f|].
  destruct (isLetter U z); [|constructor].
  destruct (account_name [] false (z :: l0)) as [account rs1].
  destruct rs1; [solve_f|].
  destruct (commodity_name U (drop_space (z0 :: rs1))) as [commodity rs2].
  solve_f.
Qed.

Notation rstate := (pstate (list event)).

Definition fsim (st : rstate) (A : rstate * status) (F : fres) : Prop :=
  let '(b, es, r) := F in
  exists evs, ps_s (fst A) = ps_s st ++ evs /\ map erase evs = es /\ ps_b (fst A) = b /\
              strip_st (snd A) = strip_st r.

Lemma fsim_bind : forall st A F kA kF w,
  fsim st A F ->
  (forall st', fsim st' (kA st') (kF (ps_b st'))) ->
  (forall r, strip_st (w r) = strip_st r) ->
  fsim st (bindr A kA w) (fbind F kF).
Proof.
  intros st [st1 r1] [[b es] r] kA kF w (evs & E1 & E2 & E3 & E4) K W. cbn [fst snd] in *.
  assert (r = SOk \/ r <> SOk) as [->|N] by (destruct r; auto; right; discriminate).
  - apply strip_ok in E4 as ->. cbn [bindr fbind]. specialize (K st1). rewrite E3 in K.
    destruct (kF b) as [[b' es'] r']. destruct K as (evs' & K1 & K2 & K3 & K4).
    exists (evs ++ evs'). rewrite K1, E1, map_app, E2, K2, app_assoc. auto.
  - assert (r1 <> SOk) by (intros ->; symmetry in E4; now apply strip_ok in E4).
    replace (bindr (st1, r1) kA w) with (st1, w r1) by (destruct r1; congruence || reflexivity).
    replace (fbind (b, es, r) kF) with (b, es, r) by (destruct r; congruence || reflexivity).
    exists evs. cbn. rewrite W. auto.
Qed.

Lemma fsim_none : forall st st' r r', ps_s st' = ps_s st -> strip_st r = strip_st r' ->
  fsim st (st', r) (ps_b st', [], r').
Proof. intros. exists []. cbn. rewrite app_nil_r. auto. Qed.

Lemma endTransaction_flat : forall st,
  fsim st (endTransaction (Some rec_th) (Some rec_ph) st) (close_open (ps_b st)).
Proof.
  intros [b fl s]. unfold endTransaction, close_open. cbn [ps_b ps_files ps_s].
  destruct (b_type b).
  - destruct (b_txn b) as [t|]; [|now apply (fsim_none (PS b fl s) (PS b fl s))].
    destruct (endNormalTransaction b t) as [t' [e|]]; [now apply (fsim_none (PS b fl s) (PS b fl s))|].
    cbn. exists [ETxn t' (last fl [])]. auto.
  - destruct (b_ptxn b) as [t|]; [|now apply (fsim_none (PS b fl s) (PS b fl s))].
    destruct (endNormalTransaction b (pt_txn t)) as [t' [e|]]; [now apply (fsim_none (PS b fl s) (PS b fl s))|].
    cbn. eexists. split; [reflexivity|]. auto.
Qed.

Lemma build_in_flat : forall st b i c, ps_b st = b -> fsim st (build_in st i c) (built b i c).
Proof.
  intros [b fl s] b' i c <-. unfold build_in, built. cbn [ps_b].
  destruct (build b i c) as [b'|e|]; exists []; cbn; rewrite app_nil_r; auto.
Qed.

Lemma fsim_weaken : forall st st' A F, ps_s st' = ps_s st -> fsim st A F -> fsim st' A F.
Proof. intros st st' A [[b es] r] H. unfold fsim. now rewrite H. Qed.

Lemma parseItem_flat : forall inc i c st, i <> includeItem ->
  fsim st (parseItem (Some rec_th) (Some rec_ph) inc st i c) (flat_item (ps_b st) i c).
Proof.
  intros inc i c st N.
  assert (forall ty f, fsim st
    (bindr (endTransaction (Some rec_th) (Some rec_ph) st)
       (fun st1 => let '(st2, r2) := build_in (set_b st1 (beginTransaction (ps_b st1) ty)) i c in
                   (st2, wrap_err f r2)) (fun r => r))
    (fbind (close_open (ps_b st)) (fun b' => rewrap f (built (beginTransaction b' ty) i c)))) as K.
  { intros ty f. apply fsim_bind; [apply endTransaction_flat| |auto].
    intros [b fl s]. unfold build_in, built, set_b. cbn beta. cbn [ps_b ps_files ps_s].
    destruct (build (beginTransaction b ty) i c) as [b'|e|]; cbn; exists []; cbn;
      rewrite app_nil_r; repeat split. }
  destruct i; cbn [parseItem flat_item]; try congruence;
    try apply endTransaction_flat; try (now apply build_in_flat).
  - apply (K normalTransaction EParsingDate).
  - apply (K periodicTransaction EParsingPeriod).
Qed.

Lemma parseItems_flat : forall inc items e st,
  Forall (fun x => fst x <> includeItem /\ fst x <> eofItem) items ->
  fsim st (parseItems (Some rec_th) (Some rec_ph) inc st items e) (flat_items (ps_b st) items e).
Proof.
  intros inc items e. induction items as [|[i c] items IH]; intros st F; cbn [parseItems flat_items].
  - apply fsim_none; reflexivity.
  - inversion F as [|? ? [F1 _] F2]; subst.
    apply (fsim_bind st _ _ (fun st' => parseItems (Some rec_th) (Some rec_ph) inc st' items e)
             (fun b' => flat_items b' items e) (fun r => r)); auto.
    now apply parseItem_flat.
Qed.

Lemma fsim_bind_flat : forall st A ls1 ls2 kA w,
  stops_fail ls1 -> fsim st A (flat U ls1 (ps_b st)) ->
  (forall st', fsim st' (kA st') (flat U ls2 (ps_b st'))) ->
  (forall r, strip_st (w r) = strip_st r) ->
  fsim st (bindr A kA w) (flat U (ls1 ++ ls2) (ps_b st)).
Proof. intros. rewrite flat_app by assumption. now apply fsim_bind. Qed.

Lemma lexLines_flat : forall inc finc, (forall p, stops_fail (finc p)) ->
  (forall path st, fsim st (inc path st) (flat U (finc path) (ps_b st))) ->
  forall hint bad ls n st,
  fsim st (lexLines U (Some rec_th) (Some rec_ph) inc hint bad n ls st)
          (flat U (expand_lines U finc hint bad ls) (ps_b st)).
Proof.
  intros inc finc SF IS hint bad. induction ls as [|[l|] ls IH]; intros n st; cbn [lexLines expand_lines].
  - destruct bad; cbn [flat].
    + apply fsim_none; reflexivity.
    + change (fsim st (endTransaction (Some rec_th) (Some rec_ph) st)
                (fbind (fbind (close_open (ps_b st)) (fun b => (b, [], SOk))) (fun b => (b, [], SOk)))).
      rewrite !fbind_ret. apply endTransaction_flat.
  - unfold included. destruct (lex_include_cases hint l) as [[c E]|[E F]].
    + rewrite E. cbn [parseItems parseItem].
      apply fsim_bind_flat; [apply SF| | |].
      * specialize (IS (encode c) (set_files st (ps_files st ++ [encode c]))).
        destruct (inc (encode c) (set_files st (ps_files st ++ [encode c]))) as [st' r].
        cbn [set_files ps_b] in IS. destruct (flat U (finc (encode c)) (ps_b st)) as [[b es] r'].
        destruct IS as (evs & E1 & E2 & E3 & E4). cbn [fst snd] in *. exists evs.
        destruct r; cbn; auto.
      * intro st'. apply IH.
      * intros. apply strip_wrap_at.
    + replace (match lexLine U hint l with
               | ([(includeItem, path)], _) => Some (encode path)
               | _ => None end) with (@None str).
      2:{ destruct (lexLine U hint l) as [[|[[] ?] [|]] ?]; try reflexivity.
          exfalso. apply Forall_inv in F as [F _]. now apply F. }
      cbn [flat]. unfold flat_line. rewrite <- E.
      destruct (lexLine U hint l) as [items e]. cbn [fst] in F.
      apply fsim_bind; [now apply parseItems_flat|intro; apply IH|intro; apply strip_wrap_at].
  - apply fsim_none; reflexivity.
Qed.

Lemma run_file_flat : forall depth hint f st,
  fsim st (run_file U fs (Some rec_th) (Some rec_ph) depth hint f st)
          (flat U (expand U fs depth hint f) (ps_b st)).
Proof.
  induction depth as [|d IH]; intros hint f st; cbn [run_file expand]; apply lexLines_flat.
  - intros p. solve_f.
  - intros path st'. apply fsim_none; reflexivity.
  - intros p. destruct (fs p); [apply expand_stops|solve_f].
  - intros path st'. destruct (fs path) as [f'|]; [|apply fsim_none; reflexivity].
    specialize (IH path f' st').
    destruct (run_file U fs (Some rec_th) (Some rec_ph) d path f' st') as [st2 r].
    destruct (flat U (expand U fs d path f') (ps_b st')) as [[b es] r'].
    destruct IH as (evs & E1 & E2 & E3 & E4). exists evs. cbn [fst snd] in *.
    rewrite strip_wrap_error. auto.
Qed.

Theorem trace_flat : forall depth hint f,
  map erase (fst (trace U fs depth hint f)) = fst (entries U fs depth hint f) /\
  strip_st (snd (trace U fs depth hint f)) = strip_st (snd (entries U fs depth hint f)).
Proof.
  intros. unfold trace, parse, entries.
  pose proof (run_file_flat depth hint f (PS newBuilder [hint] [])) as H. cbn [ps_b] in H.
  destruct (run_file U fs (Some rec_th) (Some rec_ph) depth hint f (PS newBuilder [hint] [])) as [st r].
  destruct (flat U (expand U fs depth hint f) newBuilder) as [[b es] r'].
  destruct H as (evs & E1 & E2 & E3 & E4). cbn [fst snd ps_s app] in *. subst evs.
  rewrite strip_wrap_error. auto.
Qed.

End Facts.
