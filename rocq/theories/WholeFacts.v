(** * Reading a whole written journal *)
From Verif Require Import Base BaseFacts Utf8 Utf8Facts Unicode GoTime Strconv Journal Lexer LexSpec
  LexerFacts JournalText LexText Parser ParserFacts FlatSpec FlatFacts Spec JournalFacts BuilderFacts LineFacts IncludeFacts
  TextSpec DateFacts AmountFacts ReadFacts WriteFacts BodyFacts BookText PeriodFacts InputFacts.

Section Whole.
Variable U : unicode.

Lemma complete_read : forall ls t b, txn_written U ls t -> complete t -> closed b ->
  exists b', flat U (map FLine ls ++ [FLine []]) b = (b', [TxnEntry t], SOk) /\ closed b'.
Proof.
  intros ls t b TW (E & A & Z) C.
  assert (t_postings t <> []) as NE by (now destruct TW).
  destruct (exists_last NE) as (before & p & EP).
  destruct (txn_read U ls t b before p TW C EP) as [_ B].
  assert (po_amount p <> None) as PA by (rewrite EP in A; apply Forall_app in A as [_ A]; now inversion A).
  destruct B as (T & W & ET & CL); [intros [X _]; contradiction|].
  rewrite kept_all in ET by assumption.
  assert (t_elided T = None) as TE.
  { destruct (t_elided T) as [i|] eqn:TE; [|reflexivity]. exfalso. destruct (proj2 (W i) TE) as (q & N & Q).
    rewrite ET in N. cbn [t_postings] in N. apply nth_error_In in N. rewrite Forall_forall in A. now apply (A q). }
  rewrite TE in ET. assert (T = t) as -> by (rewrite ET; destruct t; cbn in *; congruence).
  destruct (t_close_spec t W) as [CS _]. rewrite CS in CL; [exact CL|].
  unfold sum64. unfold zero64, total in Z. now apply wrap64_zero_iff.
Qed.

Lemma settled_read : forall ls t t' b, txn_written U ls t -> settled t t' -> closed b ->
  exists b', flat U (map FLine ls ++ [FLine []]) b = (b', [TxnEntry t'], SOk) /\ closed b'.
Proof.
  intros ls t t' b TW S C. destruct S as [t K|d s payee before cs a after note notes F Z]; [now apply complete_read|].
  set (p := Posting cs a None) in *. set (ps := before ++ p :: after) in *.
  destruct (@exists_last _ ps) as (init & z & EP); [unfold ps; destruct before; discriminate|].
  destruct (txn_read U ls _ b init z TW C EP) as [_ B].
  assert (NB : ~ (elided z /\ Exists elided init)) by (apply (one_elided before p after init z F EP)).
  destruct (B NB) as (T & W & ET & CL). cbn [t_postings t_date t_state t_payee t_headernote t_notes] in ET.
  unfold ps in ET at 1. rewrite kept_one in ET by (assumption || reflexivity). fold ps in ET.
  assert (TP : t_postings T = before ++ p :: after) by (rewrite ET; reflexivity).
  assert (TE : t_elided T = Some (length before)).
  { apply W. exists p. split; [|reflexivity]. rewrite TP, nth_error_app2 by lia. now rewrite Nat.sub_diag. }
  destruct (t_close_spec T W) as (_ & _ & CS).
  assert (NZ : sum64 (t_postings T) <> 0).
  { rewrite TP. unfold sum64, p. rewrite total_one. intro X. apply Z. unfold zero64. now apply wrap64_zero_iff. }
  rewrite (CS NZ before p after TP eq_refl) in CL. rewrite TP in CL. unfold sum64, p in CL. rewrite total_one, commodity_one in CL.

  rewrite wrap64_opp in CL. unfold with_postings in CL. rewrite TE in CL. rewrite ET in CL. cbn in CL. exact CL.
Qed.

Lemma comment_flat : forall c l b, comment_sign c -> flat_line U (c :: l) b = (b, [], SOk).
Proof. intros c l b S. unfold flat_line. rewrite comment_lexes by assumption. reflexivity. Qed.

Lemma book_read : forall ls ws, book_written U ls ws -> forall es, Forall2 means ws es -> forall b, closed b ->
  exists b', flat U (map FLine ls) b = (b', es, SOk) /\ closed b'.
Proof.
  assert (Step : forall ls ls' e es b, (exists b', flat U (map FLine ls ++ [FLine []]) b = (b', [e], SOk) /\ closed b') ->
    (forall b, closed b -> exists b', flat U (map FLine ls') b = (b', es, SOk) /\ closed b') ->
    exists b', flat U (map FLine (ls ++ [] :: ls')) b = (b', e :: es, SOk) /\ closed b').
  { intros ls ls' e es b (b1 & E1 & C1) IH. destruct (IH b1 C1) as (b2 & E2 & C2). exists b2. split; [|exact C2].
    replace (map FLine (ls ++ [] :: ls')) with ((map FLine ls ++ [FLine []]) ++ map FLine ls')
      by (rewrite map_app, <- app_assoc; reflexivity).
    rewrite flat_app.
    + rewrite E1. cbn [fbind]. rewrite E2. reflexivity.
    + apply Forall_app. split; [apply lines_no_stop|]. repeat constructor. discriminate. }
  induction 1 as [|ls t ls' ws TW J IH|ls a ls' ws AW J IH|ls ws J IH|c l ls ws Cs J IH]; intros es F b C.
  - inversion F. exists b. auto.
  - inversion F as [|? e ? es2 Fe F']; subst. inversion Fe; subst. apply Step; [eapply settled_read; eassumption|now apply IH].
  - inversion F as [|? e ? es2 Fe F']; subst. inversion Fe; subst. apply Step; [eapply assignment_read; eassumption|now apply IH].
  - destruct (IH _ F b C) as (b2 & E2 & C2). exists b2. split; [|exact C2]. cbn [map flat].
    assert (flat_line U [] b = fbind (close_open b) (fun b' => (b', [], SOk))) as -> by reflexivity.
    rewrite fbind_ret, C. cbn [fbind]. rewrite E2. reflexivity.
  - destruct (IH _ F b C) as (b2 & E2 & C2). exists b2. split; [|exact C2]. cbn [map flat].
    rewrite comment_flat by assumption. cbn [fbind]. rewrite E2. reflexivity.
Qed.

Lemma book_not_included : forall hint ls ws, book_written U ls ws -> Forall (fun l => included U hint l = None) ls.
Proof.
  induction 1 as [|ls t ls' ws TW J IH|ls a ls' ws AW J IH|ls ws J IH|c l ls ws Cs J IH]; [constructor| | |constructor; [reflexivity|assumption]|].
  - apply Forall_app. split; [eapply txn_not_included; eassumption|]. constructor; [reflexivity|assumption].
  - apply Forall_app. split; [eapply assignment_not_included; eassumption|]. constructor; [reflexivity|assumption].
  - constructor; [|assumption]. unfold included. now rewrite comment_lexes.
Qed.

(** An entry read from the file [path]. *)
Definition from (path : str) (e : entry) : event :=
  match e with TxnEntry t => ETxn t path | PerEntry pt => EPer pt path end.

Theorem book_written_read : forall fs depth hint ls ws es, book_written U ls ws -> Forall readable ls -> Forall2 means ws es ->
  trace U fs depth hint (File (text_of ls) false) = (map (from hint) es, SOk).
Proof.
  intros fs depth hint ls ws es J R F.
  pose proof (book_not_included hint ls ws J) as NI.
  destruct (book_read ls ws J es F newBuilder closed_new) as (b & E & C).
  pose proof (trace_flat U fs depth hint (File (text_of ls) false)) as [TF TS].
  assert (forall ev, In ev (fst (trace U fs depth hint (File (text_of ls) false))) -> event_path ev = hint) as PATH.
  { intros ev I. eapply paths_alone; [|eassumption]. cbn [f_bytes]. rewrite text_lines by assumption.
    intros l IL. apply in_map_iff in IL as (y & X & IL). injection X as ->. rewrite Forall_forall in NI. now apply NI. }
  unfold entries in TF, TS. rewrite expand_text in TF, TS by assumption.
  rewrite flat_app, E in TF, TS by apply lines_no_stop. cbn [fbind flat] in TF, TS.
  assert (flat_line U [] b = fbind (close_open b) (fun b' => (b', [], SOk))) as FE by reflexivity.
  rewrite FE in TF, TS. rewrite fbind_ret, C in TF, TS. cbn [fbind fst snd app] in TF, TS. rewrite app_nil_r in TF.
  destruct (trace U fs depth hint (File (text_of ls) false)) as [evs r]. cbn [fst snd] in *. apply strip_ok in TS as ->.
  f_equal. clear -TF PATH. revert es TF. induction evs as [|ev evs IH]; intros [|e es] TF; try discriminate; [reflexivity|].
  cbn in TF. injection TF as T1 T2. cbn [map]. rewrite <- (IH (fun ev I => PATH ev (or_intror I)) es T2). f_equal.
  specialize (PATH ev (or_introl eq_refl)). subst e. destruct ev; cbn in *; now subst.
Qed.

Lemma means_txns : forall ts ts', Forall2 settled ts ts' -> Forall2 means (map WTxn ts) (map TxnEntry ts').
Proof. induction 1; cbn [map]; constructor; auto. now constructor. Qed.

Theorem settled_written_read : forall fs depth hint ls ts ts', journal_written U ls ts -> Forall readable ls -> Forall2 settled ts ts' ->
  trace U fs depth hint (File (text_of ls) false) = (map (fun t => ETxn t hint) ts', SOk).
Proof.
  intros fs depth hint ls ts ts' J R F. rewrite (book_written_read fs depth hint ls _ _ (journal_book U ls ts J) R (means_txns ts ts' F)).
  now rewrite map_map.
Qed.
Theorem written_read : forall fs depth hint ls ts, journal_written U ls ts -> Forall readable ls -> Forall complete ts ->
  trace U fs depth hint (File (text_of ls) false) = (map (fun t => ETxn t hint) ts, SOk).
Proof.
  intros fs depth hint ls ts J R F. eapply settled_written_read; eauto. clear J. induction F; constructor; auto. now constructor.
Qed.

(** The lines of a transaction are read without error; whatever is wrong with it
    is found at the blank line after it. *)
Lemma txn_opens : forall ls t b, txn_written U ls t -> closed b -> exists b', flat U (map FLine ls) b = (b', [], SOk).
Proof.
  intros ls t b TW C. destruct TW as [h d s payee note nl notes pl ps HW NW PW NE].
  destruct (header_read U h d s payee note b HW C) as (b1 & pt & E1 & O1).
  destruct (notes_read U nl notes NW b1 pt _ O1) as (b2 & E2 & O2).
  destruct (postings_read U pl ps PW b2 pt _ newPosting O2 eq_refl) as (b3 & E3 & O3).
  exists b3. cbn [map flat]. rewrite E1. cbn [fbind]. rewrite map_app, flat_app by apply lines_no_stop.
  rewrite E2. cbn [fbind]. rewrite E3. reflexivity.
Qed.

Lemma unbalanced_read : forall ls t b, txn_written U ls t -> closed b -> Forall (fun p => ~ elided p) (t_postings t) ->
  ~ zero64 (total (t_postings t)) ->
  exists b', flat U (map FLine ls) b = (b', [], SOk) /\ snd (flat_line U [] b') = SErr EUnbalanced.
Proof.
  intros ls t b TW C A NZ. destruct (txn_opens ls t b TW C) as (b1 & E1). exists b1. split; [exact E1|].
  assert (NE : t_postings t <> []) by (now destruct TW). destruct (exists_last NE) as (before & p & EP).
  destruct (txn_read U ls t b before p TW C EP) as [_ B].
  destruct B as (T & W & ET & CL).
  { intros [X _]. rewrite EP in A. apply Forall_app in A as [_ A]. inversion A. contradiction. }
  rewrite kept_all in ET by exact A.
  assert (TP : t_postings T = t_postings t) by (rewrite ET; reflexivity).
  destruct (t_close_spec T W) as (_ & CS & _). rewrite CS in CL.
  - destruct CL as [b2 CL]. rewrite flat_app, E1 in CL by apply lines_no_stop. cbn [fbind flat app] in CL.
    destruct (flat_line U [] b1) as [[b3 es] [| | | |]]; cbn in CL |- *; inversion CL; reflexivity.
  - rewrite TP. unfold sum64. intro X. apply NZ. now apply wrap64_zero_iff.
  - now rewrite TP.
Qed.

Lemma flat_stops : forall A b0 b1 es e more, flat U (map FLine A) b0 = (b1, es, SOk) -> snd (flat_line U [] b1) = SErr e ->
  snd (flat U (map FLine A ++ FLine [] :: more) b0) = SErr e.
Proof.
  intros A b0 b1 es e more F N. rewrite flat_app, F by apply lines_no_stop. cbn [fbind flat].
  destruct (flat_line U [] b1) as [[b2 es2] r]. cbn [snd] in N. subst r. reflexivity.
Qed.

Theorem refused_read : forall fs depth hint ls0 ws es lt t rest, book_written U ls0 ws -> Forall2 means ws es ->
  txn_written U lt t -> Forall (fun p => ~ elided p) (t_postings t) -> ~ zero64 (total (t_postings t)) ->
  Forall readable (ls0 ++ lt ++ [] :: rest) ->
  snd (trace U fs depth hint (File (text_of (ls0 ++ lt ++ [] :: rest)) false)) =
  SErr (EErrorAt (EAt hint (Z.of_nat (length ls0 + length lt) + 1) EUnbalanced)).
Proof.
  intros fs depth hint ls0 ws es0 lt t rest J F TW A NZ R.
  destruct (book_read ls0 ws J es0 F newBuilder closed_new) as (b0 & E0 & C0).
  destruct (unbalanced_read lt t b0 TW C0 A NZ) as (b1 & E1 & N1).
  rewrite <- app_length. rewrite app_assoc in *. set (ls := ls0 ++ lt) in *.
  assert (NI : Forall (fun l => included U hint l = None) ls).
  { apply Forall_app; split; [eapply book_not_included; eassumption|eapply txn_not_included; eassumption]. }
  assert (E2 : flat U (map FLine ls) newBuilder = (b1, es0 ++ [], SOk)).
  { unfold ls. rewrite map_app, flat_app, E0 by apply lines_no_stop. cbn [fbind]. rewrite E1. reflexivity. }
  assert (X : forall inc l, Forall (fun l => included U hint l = None) l -> flat_map (line_exp U inc hint) (map Line l) = map FLine l).
  { intros inc l. induction 1 as [|x l H _ IH]; [reflexivity|]. cbn [map flat_map line_exp]. now rewrite H, IH. }
  set (f := File (text_of (ls ++ [] :: rest)) false) in *.
  assert (FL : file_lines (f_bytes f) = map Line (ls ++ [] :: rest)) by (now apply text_lines).
  pose proof (trace_flat U fs depth hint f) as [_ TS].
  assert (EN : snd (entries U fs depth hint f) = SErr EUnbalanced).
  { unfold entries. assert (EX : exists more, expand U fs depth hint f = map FLine ls ++ FLine [] :: more).
    { destruct depth; cbn [expand]; rewrite FL, map_app; rewrite expand_lines_app
        by (intro I; apply in_map_iff in I as (y & Q & _); discriminate); rewrite X by exact NI; cbn [map expand_lines];
        (replace (included U hint []) with (@None str) by reflexivity); eauto. }
    destruct EX as [more ->]. pose proof (flat_stops ls newBuilder b1 _ EUnbalanced more E2 N1) as Q.
    destruct (flat U (map FLine ls ++ FLine [] :: more) newBuilder) as [[? ?] ?]. exact Q. }
  rewrite EN in TS. destruct (snd (trace U fs depth hint f)) as [|e| | |] eqn:T; try discriminate. clear TS EN.
  apply trace_located in T as (e' & -> & Lo). f_equal. f_equal.
  assert (Late : forall inc k b2 es, (length ls < k)%nat ->
    flat U (flat_map (line_exp U inc hint) (firstn k (file_lines (f_bytes f)))) newBuilder = (b2, es, SOk) -> False).
  { intros inc k b2 es Lt Q. rewrite FL, map_app, firstn_app, firstn_all2, map_length in Q by (rewrite map_length; lia).
    destruct (k - length ls)%nat as [|m] eqn:Km; [lia|]. cbn [map firstn] in Q. rewrite flat_map_app, X in Q by exact NI.
    cbn [flat_map line_exp] in Q. replace (included U hint []) with (@None str) in Q by reflexivity.
    pose proof (flat_stops ls newBuilder b1 _ EUnbalanced (flat_map (line_exp U inc hint) (firstn m (map Line rest))) E2 N1) as Y.
    cbn [app] in Q. rewrite Q in Y. discriminate. }
  assert (Here : forall k l, nth_error (file_lines (f_bytes f)) k = Some (Line l) -> included U hint l <> None -> (length ls < k)%nat).
  { intros k l N I. rewrite FL in N. destruct (Nat.lt_trichotomy k (length ls)) as [Lt|[->|Lt]]; [| |exact Lt]; exfalso; apply I.
    - rewrite map_app, nth_error_app1, nth_error_map in N by (rewrite map_length; lia). destruct (nth_error ls k) as [y|] eqn:Ny; [|discriminate].
      injection N as ->. apply nth_error_In in Ny. rewrite Forall_forall in NI. now apply NI.
    - rewrite map_app, nth_error_app2 in N by (rewrite map_length; lia). rewrite map_length, Nat.sub_diag in N. cbn in N. injection N as <-. reflexivity. }
  inversion Lo as [d b hint' f' k l b2 es e N I Q Er|d b hint' f' k l b2 es p N I Fs Q|d b hint' f' k l b2 es p f2 e N I Fs Q Lo'|d b hint' f' b2 es e Q Bad Er|d b hint' f' b2 es Q Bad]; subst.
  - destruct (Nat.lt_trichotomy k (length ls)) as [Lt|[->|Lt]]; [| |exfalso; eapply Late; eauto].
    + exfalso. rewrite FL in N, Q. rewrite map_app, nth_error_app1, nth_error_map in N by (rewrite map_length; lia).
      destruct (nth_error ls k) as [y|] eqn:Ny; [|discriminate]. injection N as ->. apply nth_error_split in Ny as (A1 & A2 & EL & <-).
      rewrite EL in Q, E2, NI. rewrite map_app, firstn_app, map_length, map_app, firstn_app, map_length, Nat.sub_diag, firstn_O, app_nil_r in Q.
      rewrite firstn_all2 in Q by (rewrite map_length; lia).
      replace (length A1 - length (A1 ++ l :: A2))%nat with 0%nat in Q by (rewrite app_length; lia). rewrite firstn_O, app_nil_r in Q.
      apply Forall_app in NI as [NI1 _]. rewrite X in Q by exact NI1.
      rewrite map_app, flat_app, Q in E2 by apply lines_no_stop. cbn [fbind map flat] in E2.
      destruct (flat_line U l b2) as [[b3 es3] r]. cbn [snd] in Er. subst r. discriminate.
    + rewrite FL in N, Q. rewrite map_app, nth_error_app2, map_length, Nat.sub_diag in N by (rewrite map_length; lia). cbn in N. injection N as <-.
      rewrite map_app, firstn_app, map_length, Nat.sub_diag, firstn_O, app_nil_r, firstn_all2, X, E2 in Q by (exact NI || rewrite map_length; lia).
      injection Q as <- _. rewrite N1 in Er. now injection Er as <-.
  - exfalso. eapply Late; [|exact Q]. apply (Here _ _ N). now rewrite I.
  - exfalso. eapply Late; [|exact Q]. apply (Here _ _ N). now rewrite I.
  - exfalso. apply (Late (inc_of U fs depth) (length (file_lines (f_bytes f))) b2 es); [rewrite FL, map_length, app_length; cbn; lia|]. now rewrite firstn_all.
  - discriminate.
Qed.
End Whole.
