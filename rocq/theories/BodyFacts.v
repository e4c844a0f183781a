(** * Reading transactions written in the usual form *)
From Verif Require Import Base BaseFacts Utf8 Utf8Facts Unicode GoTime Strconv Journal Lexer LexSpec
  LexerFacts JournalText LexText Parser FlatSpec FlatFacts Spec JournalFacts BuilderFacts LineFacts IncludeFacts
  TextSpec DateFacts AmountFacts ReadFacts WriteFacts.

Notation valid := (Forall (fun r => valid_rune r = true)).

Lemma spaces_ascii : forall k, Forall ascii (spaces k).
Proof. intro k. unfold spaces. apply Forall_forall. intros x I. apply repeat_spec in I. subst. unfold ascii. lia. Qed.
Lemma ascii_valids : forall s, Forall ascii s -> valid s.
Proof. intros s F. eapply Forall_impl; [|exact F]. intros a A. now apply ascii_valid. Qed.
Lemma spaces_valid : forall k, valid (spaces k).
Proof. intro. apply ascii_valids, spaces_ascii. Qed.

Lemma mark_ascii : forall s, Forall ascii [32; mark_of s; 32].
Proof. intros []; repeat apply Forall_cons; try apply Forall_nil; unfold ascii; cbn; lia. Qed.

(** The bytes of ASCII text between encoded texts. *)
Lemma encode_ascii_app : forall a rs, Forall ascii a -> a ++ encode rs = encode (a ++ rs).
Proof. intros a rs F. now rewrite encode_app, (encode_ascii a). Qed.

Lemma amount_text_ascii : forall w q, amount_text w q -> Forall ascii w.
Proof.
  assert (forall c, digit c -> ascii c) as DA by (unfold digit, ascii; intros; lia).
  assert (forall sg m, sign_text sg m -> Forall ascii sg) as SA.
  { intros sg m []; repeat apply Forall_cons; try apply Forall_nil; unfold ascii; lia. }
  intros w q H. destruct H as [sg m w S N D|sg m w c k S N D (L & DC & V)].
  - apply Forall_app. split; [eauto|]. eapply Forall_impl; eauto.
  - apply Forall_app. split; [eauto|]. apply Forall_app. split; [eapply Forall_impl; eauto|].
    constructor; [unfold ascii; lia|]. eapply Forall_impl; eauto.
Qed.

Lemma amount_text_runes : forall w q, amount_text w q -> amount_runes w.
Proof.
  assert (forall c, digit c -> breaks c = false /\ c <> c_space) as DB.
  { intros c D. unfold digit in D. unfold breaks, isCommentIndicator, c_semi, c_hash, c_tab, c_space.
    split; [|lia]. rewrite !orb_false_iff. repeat split; apply Z.eqb_neq; lia. }
  assert (forall sg m, sign_text sg m -> Forall (fun r => breaks r = false /\ r <> c_space) sg) as SA.
  { intros sg m []; repeat apply Forall_cons; try apply Forall_nil; split; try reflexivity; discriminate. }
  assert (forall sg m w, sign_text sg m -> w <> [] -> Forall digit w -> forall rest,
     digit (hd 0 ((sg ++ w) ++ rest)) \/ hd 0 ((sg ++ w) ++ rest) = c_minus \/ hd 0 ((sg ++ w) ++ rest) = c_plus) as HD.
  { intros sg m w S N D rest. destruct S; cbn; auto. left. destruct w; [congruence|]. now inversion D. }
  intros w q H. split.
  - destruct H as [sg m w S N D|sg m w c k S N D (L & DC & V)].
    + specialize (HD sg m w S N D []). now rewrite app_nil_r in HD.
    + specialize (HD sg m w S N D ([46] ++ c)). now rewrite <- app_assoc in HD.
  - destruct H as [sg m w S N D|sg m w c k S N D (L & DC & V)].
    + apply Forall_app. split; [eauto|]. eapply Forall_impl; eauto.
    + apply Forall_app. split; [eauto|]. apply Forall_app. split; [eapply Forall_impl; eauto|].
      constructor; [split; [reflexivity|discriminate]|]. eapply Forall_impl; eauto.
Qed.

Section Body.
Variable U : unicode.

(** ** The lines, lexed *)
Lemma lex_encoded : forall hint rs, valid rs -> lexLine U hint (encode rs) = lex_runes U hint rs.
Proof. intros. rewrite lexLine_spec, decode_encode by assumption. reflexivity. Qed.

Lemma sign_ascii : forall c, comment_sign c -> Forall ascii [c].
Proof. intros c [->| ->]; constructor; try constructor; unfold ascii; lia. Qed.

Lemma blank_ascii : forall n, blank n -> Forall ascii n.
Proof. intros n B. eapply Forall_impl; [|exact B]. intros a ->. unfold ascii, c_space. lia. Qed.

Lemma remark_lexed : forall hint l n, remark_written l n ->
  exists rs, lexLine U hint l = ([(commentItem, rs)], None) /\ encode rs = n.
Proof.
  intros hint l n [k c m n' CS (rs & V & R & ->)|k c n' CS B].
  - exists rs. split; [|reflexivity].
    rewrite (encode_ascii_app (spaces m)) by apply spaces_ascii.
    rewrite (encode_ascii_app [c]) by now apply sign_ascii.
    rewrite encode_ascii_app by apply spaces_ascii. rewrite lex_encoded.
    + exact (lex_remark_written U hint k c m rs CS R).
    + repeat (apply Forall_app; split); try apply spaces_valid; try assumption. now apply ascii_valids, sign_ascii.
  - pose proof (blank_ascii n' B) as A. exists n'. split; [|now apply encode_ascii].
    rewrite <- (encode_ascii (spaces (2 + k) ++ [c] ++ n')) by (repeat (apply Forall_app; split); [apply spaces_ascii|now apply sign_ascii|exact A]).
    rewrite lex_encoded by (apply ascii_valids; repeat (apply Forall_app; split); [apply spaces_ascii|now apply sign_ascii|exact A]).
    exact (lex_blank_remark U hint k c n' CS B).
Qed.

Lemma posting_lexed : forall hint l p, posting_written U l p ->
  exists a am, lexLine U hint l = (posting_items a am, None) /\ po_account p = encode a /\ a <> [] /\ po_comments p = [] /\
    match am with
    | None => po_amount p = None
    | Some (c, w) => exists q, parseAmount w = POk q /\ po_amount p = Some (Amount (encode c) q)
    end.
Proof.
  intros hint l p H. destruct H as [k a (rs & V & R & ->)|k a m c w q (rs & V & R & ->) (cs & VC & RC & ->) T Q].
  - exists rs, None. cbn [po_account po_amount po_comments]. rewrite encode_ascii_app by apply spaces_ascii. rewrite lex_encoded.
    + split; [exact (lex_elided_written U hint k rs R)|]. repeat split. apply R.
    + apply Forall_app. split; [apply spaces_valid|assumption].
  - exists rs, (Some (cs, w)). cbn [po_account po_amount po_comments].
    assert (spaces (2 + k) ++ encode rs ++ spaces (2 + m) ++ encode cs ++ w = encode (spaces (2 + k) ++ rs ++ spaces (2 + m) ++ cs ++ w)) as ->.
    { rewrite !encode_app, !(encode_ascii (spaces _)), (encode_ascii w) by (apply spaces_ascii || eapply amount_text_ascii; eassumption).
      reflexivity. }
    rewrite lex_encoded.
    + split; [|repeat split; [apply R|exists q; split; [now apply amount_text_read|reflexivity]]].
      apply (lex_posting_written U hint k rs m cs w R RC). eapply amount_text_runes; eassumption.
    + repeat (apply Forall_app; split); try assumption; try apply spaces_valid.
      apply ascii_valids. eapply amount_text_ascii; eassumption.
Qed.

Lemma ymd_word : forall sep d w, separator sep -> ymd_text sep d w -> Forall ascii w /\ w <> [] /\ date_word w (c_space :: nil).
Proof.
  intros sep d w S T. pose proof (ymd_ascii _ _ _ S T) as A. split; [exact A|].
  destruct T as [y m dd (L1 & D1 & V1) (L2 & D2 & V2) (L3 & D3 & V3)].
  destruct y as [|y0 y]; [discriminate|]. split; [discriminate|]. split; [now inversion D1|]. split; [|now right].
  assert (forall c, digit c -> (c =? c_space) = false) as DS by (intros c D; apply digit_not; [assumption|unfold c_space; lia]).
  assert ((sep =? c_space) = false) as SS by (destruct S as [->|[->| ->]]; reflexivity).
  repeat (apply Forall_app; split); try (eapply Forall_impl; [|eassumption]; apply DS); constructor; auto.
Qed.

Definition header_items (w : list Z) (s : txn_state) (payee : list Z) (note : list (itemType * list Z)) : list (itemType * list Z) :=
  (dateItem, w) :: state_items (mark_of s) ++ (payeeItem, payee) :: note.
Definition note_given (items : list (itemType * list Z)) (note : str) : Prop :=
  (items = [] /\ note = []) \/ exists rn, items = [(transactionHeaderCommentItem, rn)] /\ encode rn = note.

Lemma to_tab_sign : forall rp e c t, phrase rp -> (e <= 1)%nat -> breaks c = true -> to_tab [] (rp ++ repeat c_space e ++ c :: t) = (rp, t).
Proof.
  intros rp e c t (N & Un & Sp & En) E B. destruct e as [|[|e]]; [| |lia]; cbn [repeat app].
  - rewrite to_tab_stop by auto. cbn. now rewrite trimSpaceEnd_id.
  - change (c_space :: c :: t) with ([32] ++ c :: t). rewrite app_assoc, to_tab_stop by (auto using unbroken_snoc). cbn. now rewrite trimSpaceEnd_space.
Qed.

Lemma lost_runes : forall text note, lost text note -> exists rt, valid rt /\ text = encode rt /\ note_given (note_of rt) note.
Proof.
  intros text note H. unfold note_given. destruct H as [|n B|m x k n Vx Nx (rn & V & R & ->)|m x n Vx Nx B].
  - exists []. split; [constructor|]. split; [reflexivity|]. left. split; reflexivity.
  - assert (B' : blank (c_space :: n)) by (constructor; [reflexivity|exact B]). exists (c_space :: n).
    split; [now apply ascii_valids, blank_ascii|]. split; [symmetry; now apply encode_ascii, blank_ascii|]. right. exists n.
    unfold note_of. rewrite (trimSpaceStart_blank _ B'), (trimSpaceStart_blank _ B). split; [reflexivity|]. now apply encode_ascii, blank_ascii.
  - exists (spaces m ++ [x] ++ spaces k ++ rn). split; [repeat (apply Forall_app; split); try apply spaces_valid; [now constructor|exact V]|].
    split; [now rewrite !encode_app, !(encode_ascii (spaces _)) by apply spaces_ascii|]. right. exists rn.
    unfold note_of. cbn [app]. change (spaces m) with (repeat c_space m). rewrite trimSpaceStart_gap by exact Nx.
    change (spaces k) with (repeat c_space k). now rewrite remark_trim.
  - exists (spaces m ++ [x] ++ n). split; [repeat (apply Forall_app; split); try apply spaces_valid; [now constructor|now apply ascii_valids, blank_ascii]|].
    split; [now rewrite !encode_app, (encode_ascii (spaces _)), (encode_ascii n) by (apply spaces_ascii || now apply blank_ascii)|]. right. exists n.
    unfold note_of. cbn [app]. change (spaces m) with (repeat c_space m). rewrite trimSpaceStart_gap by exact Nx.
    rewrite (trimSpaceStart_blank _ B). split; [reflexivity|]. now apply encode_ascii, blank_ascii.
Qed.

Lemma mark_bare : forall s, mark_ok (mark_of s) [].
Proof. destruct s; [right; right; repeat split; discriminate|now left|right; now left]. Qed.

Lemma header_lexed : forall hint l d s payee note, header_written l d s payee note ->
  exists w rp nts, lexLine U hint l = (header_items w s rp nts, None) /\
    parseDate w = POk d /\ encode rp = payee /\ note_given nts note.
Proof.
  intros hint l d s payee note H.
  assert (forall sep w, separator sep -> ymd_text sep d w -> real_date d -> parseDate w = POk d) as PD.
  { intros sep w S T R. destruct (ymd_word sep d w S T) as (A & _ & _).
    apply parseDate_spec; [now apply ascii_valids| |eauto].
    destruct T as [y m dd (L1 & _) (L2 & _) (L3 & _)]. rewrite !app_length. cbn. lia. }
  assert (forall j, mark_text s j = state_runes (mark_of s) j) as MT by (intro j; now destruct s).
  assert (forall j, Forall ascii (mark_text s j)) as MA.
  { intro j. destruct s; cbn [mark_text]; constructor; try apply spaces_ascii; unfold ascii; cbn; lia. }
  assert (LX : forall sep w i j rp t rs4, separator sep -> ymd_text sep d w -> valid rp -> valid t -> mark_ok (mark_of s) rp ->
    (phrase rp \/ exists c t', rp = [] /\ comment_sign c /\ t = c :: t') -> to_tab [] (rp ++ t) = (rp, rs4) ->
    lexLine U hint (w ++ spaces (1 + i) ++ mark_text s j ++ encode rp ++ encode t) = (header_items w s rp (note_of rs4), None)).
  { intros sep w i j rp t rs4 S T V Vt M P TT. destruct (ymd_word sep d w S T) as (A & N & DW).
    rewrite <- encode_app.
    rewrite encode_ascii_app by apply MA. rewrite encode_ascii_app by apply spaces_ascii. rewrite encode_ascii_app by assumption.
    rewrite lex_encoded.
    2:{ repeat (apply Forall_app; split); try assumption; try apply spaces_valid; apply ascii_valids; auto. }
    rewrite MT. exact (lex_headed U hint w i (mark_of s) j rp t rs4 DW N M P TT). }
  destruct H as [sep w d s i j payee S T R (rp & V & P & ->)|sep w d s i j payee k c m note S T R (rp & V & P & ->) CS (rn & VN & PN & ->)
    |sep w d s i j payee k c note S T R (rp & V & [P1 P2] & ->) CS B
    |sep w d s i j payee e c text note S T R (rp & V & [P1 P2] & ->) Le CS Lo
    |sep w d s i j c text note S T R CS Lo];
    destruct (ymd_word sep d w S T) as (A & N & DW).
  - exists w, rp, []. split; [|split; [eauto|split; [reflexivity|now left]]].
    rewrite encode_ascii_app by apply MA. rewrite encode_ascii_app by apply spaces_ascii. rewrite encode_ascii_app by assumption.
    rewrite lex_encoded.
    2:{ repeat (apply Forall_app; split); try assumption; try apply spaces_valid; apply ascii_valids; auto. }
    pose proof (lex_header_written U hint w i (mark_of s) j rp 0 59 0 [] DW N) as X. cbn [note_runes] in X. rewrite app_nil_r in X.
    rewrite MT. destruct P as [->|[P1 P2]].
    + apply X; [apply mark_bare|now left|now left].
    + apply X; [exact P2|now left|right; split; [exact P1|now left]].
  - exists w, rp, (note_items rn). split; [|split; [eauto|split; [reflexivity|right; exists rn; split; [|reflexivity]; destruct rn; [destruct PN; congruence|reflexivity]]]]. destruct P as [P1 P2].
    rewrite (encode_ascii_app (spaces m)) by apply spaces_ascii. rewrite (encode_ascii_app [c]) by now apply sign_ascii.
    rewrite (encode_ascii_app (spaces (2 + k))) by apply spaces_ascii. rewrite <- encode_app.
    rewrite encode_ascii_app by apply MA. rewrite encode_ascii_app by apply spaces_ascii. rewrite encode_ascii_app by assumption.
    rewrite lex_encoded.
    2:{ repeat (apply Forall_app; split); try assumption; try apply spaces_valid; apply ascii_valids; auto. now apply sign_ascii. }
    unfold header_items. rewrite <- (lex_header_written U hint w i (mark_of s) j rp k c m rn DW N P2 CS); [|right; split; [assumption|now right]].
    rewrite MT. f_equal. destruct rn; [destruct PN; congruence|reflexivity].
  - set (t := spaces (2 + k) ++ [c] ++ note). assert (At : Forall ascii t) by (repeat (apply Forall_app; split); [apply spaces_ascii|now apply sign_ascii|now apply blank_ascii]).
    exists w, rp, (note_of (repeat c_space (1 + k) ++ c :: note)). split; [|split; [eauto|split; [reflexivity|]]].
    + rewrite <- (encode_ascii t) by exact At. apply (LX sep); auto; [now apply ascii_valids|].
      unfold t. destruct P1 as (N' & UB & T1 & T2). change (spaces (2 + k) ++ [c] ++ note) with (c_space :: c_space :: repeat c_space k ++ c :: note).
      rewrite to_tab_gap by (try assumption; now left). reflexivity.
    + right. exists note. unfold note_of. rewrite trimSpaceStart_gap by (destruct CS as [->| ->]; discriminate). rewrite (trimSpaceStart_blank _ B).
      split; [reflexivity|now apply encode_ascii, blank_ascii].
  - destruct (lost_runes _ _ Lo) as (rt & Vt & -> & No). exists w, rp, (note_of rt). split; [|split; [eauto|split; [reflexivity|exact No]]].
    rewrite (encode_ascii_app [c]) by now apply sign_ascii. rewrite (encode_ascii_app (spaces e)) by apply spaces_ascii.
    apply (LX sep); auto.
    + repeat (apply Forall_app; split); [apply spaces_valid|now apply ascii_valids, sign_ascii|exact Vt].
    + apply to_tab_sign; auto. now destruct CS as [->| ->].
  - destruct (lost_runes _ _ Lo) as (rt & Vt & -> & No). exists w, [], (note_of rt). split; [|split; [eauto|split; [reflexivity|exact No]]].
    rewrite (encode_ascii_app [c]) by now apply sign_ascii.
    apply (LX sep w i j [] ([c] ++ rt) rt S T); [constructor|apply Forall_app; split; [now apply ascii_valids, sign_ascii|exact Vt]|apply mark_bare|right; exists c, rt; auto|].
    cbn [app to_tab]. now destruct CS as [->| ->].
Qed.

(** ** Reading them *)

(** A closed reader: nothing open. *)
Definition closed (b : builder) : Prop := close_open b = (b, [], SOk).

Lemma closed_new : closed newBuilder.
Proof. reflexivity. Qed.

Lemma header_read : forall h d s payee note b, header_written h d s payee note -> closed b ->
  exists b' pt, flat_line U h b = (b', [], SOk) /\
    opened pt (Txn d s payee [] None note []) newPosting b'.
Proof.
  intros h d s payee note b H C. destruct (header_lexed [] h d s payee note H) as (w & rp & nts & L & PD & <- & No).
  unfold flat_line. rewrite L. unfold header_items.
  pose proof (header_result b w (state_items (mark_of s)) rp nts) as X. cbn zeta in X.
  rewrite C, PD in X.
  destruct X as (t & -> & ->).
  - unfold state_items. destruct s; cbn; [now left|right; eexists; split; [|reflexivity]; now left|right; eexists; split; [|reflexivity]; now right].
  - destruct No as [[-> _]|(rn & -> & _)]; [now left|right; eexists; reflexivity].
  - eexists. eexists. split; [reflexivity|]. eexists. split; [|].
    2:{ f_equal. f_equal. destruct No as [[-> ->]|(rn & -> & <-)]; destruct s; reflexivity. }
    destruct No as [[-> _]|(rn & -> & _)]; cbn; unfold ready; cbn; tauto.
Qed.

Lemma remark_read : forall l n b pt t p, remark_written l n -> opened pt t p b ->
  exists b', flat_line U l b = (b', [], SOk) /\
    match po_account p with [] => opened pt (addNote t n) p b' | _ => opened pt t (addComment p n) b' end.
Proof.
  intros l n b pt t p R O. destruct (remark_lexed [] l n R) as (rs & L & <-). unfold flat_line. rewrite L.
  exact (read_comment pt t p b rs O).
Qed.

Lemma posting_read : forall l p b pt t p0, posting_written U l p -> opened pt t p0 b -> carry p0 = newPosting ->
  exists b', flat_line U l b = (b', [], SOk) /\ opened pt (push t p0) p b' /\ po_account p <> [].
Proof.
  intros l p b pt t p0 H O C. destruct (posting_lexed [] l p H) as (a & am & L & EA & NA & EC & AM).
  unfold flat_line. rewrite L.
  pose proof (read_posting pt t p0 b a am O) as X. rewrite C in X. specialize (X eq_refl).
  assert (po_account p <> []) as N by (rewrite EA; destruct a as [|r a]; [congruence|]; rewrite encode_cons;
    pose proof (encode_rune_nonempty r); destruct (encode_rune r); [congruence|discriminate]).
  destruct p as [cs ac amt]. cbn [po_account po_amount po_comments] in *. subst cs ac.
  destruct am as [[c w]|].
  - destruct AM as (q & PA & ->). rewrite PA in X. destruct X as (b' & -> & O'). eauto.
  - subst amt. destruct X as (b' & -> & O'). eauto.
Qed.

Lemma lines_no_stop : forall ls, stops_fail (map FLine ls).
Proof. intro ls. apply Forall_forall. intros x I. apply in_map_iff in I as (y & <- & _). discriminate. Qed.

(** Comments after a posting. *)
Lemma comments_read : forall ls cs, Forall2 remark_written ls cs -> forall b pt t p, opened pt t p b -> po_account p <> [] ->
  exists b', flat U (map FLine ls) b = (b', [], SOk) /\ opened pt t (with_comments p cs) b'.
Proof.
  induction 1 as [|l n ls cs R F IH]; intros b pt t p O N; cbn [map flat].
  - exists b. split; [reflexivity|]. destruct p. unfold with_comments. cbn. now rewrite app_nil_r.
  - destruct (remark_read l n b pt t p R O) as (b1 & -> & O1). destruct (po_account p) as [|x ac] eqn:A; [congruence|].
    destruct (IH b1 pt t (addComment p n) O1) as (b2 & E & O2); [cbn; rewrite A; discriminate|].
    cbn [fbind]. rewrite E. eexists. split; [reflexivity|].
    replace (with_comments p (n :: cs)) with (with_comments (addComment p n) cs); [assumption|].
    destruct p. unfold with_comments, addComment. cbn. now rewrite <- app_assoc.
Qed.

(** Notes before the first posting. *)
Lemma notes_read : forall ls ns, Forall2 remark_written ls ns -> forall b pt t, opened pt t newPosting b ->
  exists b', flat U (map FLine ls) b = (b', [], SOk) /\
    opened pt (Txn (t_date t) (t_state t) (t_payee t) (t_postings t) (t_elided t) (t_headernote t) (t_notes t ++ ns)) newPosting b'.
Proof.
  induction 1 as [|l n ls ns R F IH]; intros b pt t O; cbn [map flat].
  - exists b. split; [reflexivity|]. rewrite app_nil_r. now destruct t.
  - destruct (remark_read l n b pt t newPosting R O) as (b1 & -> & O1). cbn [newPosting po_account] in O1.
    destruct (IH b1 pt (addNote t n) O1) as (b2 & E & O2). cbn [fbind]. rewrite E. eexists. split; [reflexivity|].
    unfold addNote in O2. cbn in O2. rewrite <- app_assoc in O2. exact O2.
Qed.

(** Postings. *)
Lemma carry_account : forall p, po_account p <> [] -> carry p = newPosting.
Proof. intros p H. unfold carry. now destruct (po_account p). Qed.

Lemma postings_read : forall ls ps, postings_written U ls ps -> forall b pt t p, opened pt t p b -> carry p = newPosting ->
  exists b', flat U (map FLine ls) b = (b', [], SOk) /\
    opened pt (fold_left push (removelast (p :: ps)) t) (last ps p) b'.
Proof.
  induction 1 as [|l q ls cs ls' ps W F PW IH]; intros b pt t p O C; cbn [map flat].
  - exists b. split; [reflexivity|exact O].
  - destruct (posting_read l q b pt t p W O C) as (b1 & -> & O1 & N). cbn [fbind].
    rewrite map_app, flat_app by apply lines_no_stop.
    destruct (comments_read ls cs F b1 pt (push t p) q O1 N) as (b2 & -> & O2). cbn [fbind].
    destruct (IH b2 pt (push t p) (with_comments q cs) O2) as (b3 & -> & O3).
    { apply carry_account. exact N. }
    eexists. split; [reflexivity|]. cbn [removelast fold_left] in *.
    assert (last (with_comments q cs :: ps) p = last ps (with_comments q cs)) as ->.
    { clear. destruct ps; [reflexivity|]. cbn [last]. revert p0. induction ps; intros; [reflexivity|]. cbn [last]. apply IHps. }
    exact O3.
Qed.

Definition seen (t : transaction) : bool := match t_elided t with Some _ => true | None => false end.

Lemma kept_app : forall ps b qs, kept b (ps ++ qs) = kept b ps ++ kept (b || existsb (fun p => match po_amount p with None => true | _ => false end) ps) qs.
Proof.
  induction ps as [|p ps IH]; intros b qs; cbn [app kept existsb]; [now rewrite orb_false_r|].
  destruct (po_amount p) as [a|]; cbn [orb]; [now rewrite IH|]. rewrite orb_true_r. destruct b; rewrite IH; now cbn.
Qed.

Lemma push_all : forall ps t, Forall (fun p => po_account p <> []) ps -> elided_ok t ->
  let t' := fold_left push ps t in
  elided_ok t' /\ t' = Txn (t_date t) (t_state t) (t_payee t) (t_postings t') (t_elided t') (t_headernote t) (t_notes t) /\
  t_postings t' = t_postings t ++ kept (seen t) ps /\
  seen t' = seen t || existsb (fun p => match po_amount p with None => true | _ => false end) ps.
Proof.
  induction ps as [|p ps IH]; intros t F W; cbn [fold_left].
  - cbn. rewrite app_nil_r, orb_false_r. repeat split; try apply W. now destruct t.
  - inversion_clear F as [|? ? N F']. destruct (po_account p) as [|x ac] eqn:A; [congruence|].
    destruct (t_addPosting t p) as [t1 e] eqn:AP. cbn [fst].
    assert (elided_ok t1) as W1 by (eapply elided_ok_add; eassumption).
    destruct (IH t1 F' W1) as (I1 & I2 & I3 & I4). cbn zeta.
    assert (push t p = t1) as -> by (unfold push; rewrite A, AP; reflexivity).
    split; [exact I1|]. unfold t_addPosting in AP.
    cbn [kept existsb]. unfold seen in *. destruct (po_amount p) as [am|]; [|destruct (t_elided t) eqn:TE]; injection AP as <- <-;
      cbn [t_elided t_postings t_date t_state t_payee t_headernote t_notes] in I2, I3, I4; (split; [exact I2|]).
    + rewrite I3, I4, <- app_assoc. split; reflexivity.
    + rewrite TE in *. rewrite I3, I4. split; reflexivity.
    + rewrite I3, I4, <- app_assoc. split; reflexivity.
Qed.

Lemma written_accounts : forall ls ps, postings_written U ls ps -> Forall (fun p => po_account p <> []) ps.
Proof.
  induction 1 as [|l q ls cs ls' ps W F PW IH]; constructor; [|assumption]. cbn.
  destruct (posting_lexed [] l q W) as (a & am & _ & EA & NA & _). rewrite EA. destruct a as [|r a]; [congruence|].
  rewrite encode_cons. pose proof (encode_rune_nonempty r). destruct (encode_rune r); [congruence|discriminate].
Qed.

Lemma existsb_elided : forall ps, existsb (fun p => match po_amount p with None => true | _ => false end) ps = true <-> Exists elided ps.
Proof.
  intro ps. rewrite existsb_exists, Exists_exists. split; intros (p & I & E); exists p; (split; [assumption|]); unfold elided in *.
  - now destruct (po_amount p).
  - now rewrite E.
Qed.

(** A whole transaction and the blank line after it. *)
Lemma txn_read : forall ls t b before p, txn_written U ls t -> closed b -> t_postings t = before ++ [p] ->
  (elided p -> Exists elided before -> exists b', flat U (map FLine ls ++ [FLine []]) b = (b', [], SErr ETwoElided)) /\
  (~ (elided p /\ Exists elided before) ->
     exists T, elided_ok T /\
       T = Txn (t_date t) (t_state t) (t_payee t) (kept false (t_postings t)) (t_elided T) (t_headernote t) (t_notes t) /\
       match t_close T with
       | (t', None) => exists b', flat U (map FLine ls ++ [FLine []]) b = (b', [TxnEntry t'], SOk) /\ closed b'
       | (_, Some e) => exists b', flat U (map FLine ls ++ [FLine []]) b = (b', [], SErr e)
       end).
Proof.
  intros ls t b before p TW C EP. destruct TW as [h d s payee note nl notes pl ps HW NW PW NE].
  cbn [t_postings t_date t_state t_payee t_headernote t_notes] in *.
  destruct (header_read h d s payee note b HW C) as (b1 & pt & E1 & O1).
  destruct (notes_read nl notes NW b1 pt _ O1) as (b2 & E2 & O2).
  cbn [t_postings t_date t_state t_payee t_headernote t_notes t_elided app] in O2.
  destruct (postings_read pl ps PW b2 pt _ newPosting O2 eq_refl) as (b3 & E3 & O3).
  pose proof (written_accounts pl ps PW) as FA. rewrite EP in FA. apply Forall_app in FA as [FA FP].
  assert (removelast (newPosting :: ps) = newPosting :: before) as RL.
  { rewrite EP. change (newPosting :: before ++ [p]) with ((newPosting :: before) ++ [p]). apply removelast_last. }
  rewrite RL, EP, last_last in O3. cbn [fold_left] in O3. unfold push at 2 in O3. cbn [newPosting po_account] in O3.
  set (t0 := Txn d s payee [] None note notes) in *.
  destruct (push_all before t0 FA (elided_ok_new d s payee note notes)) as (W & TE & TP & TS).
  set (t1 := fold_left push before t0) in *. cbn [t0 seen t_elided orb t_postings app] in TP, TS.
  assert (flat U (map FLine (h :: nl ++ pl) ++ [FLine []]) b = fbind (close_open b3) (fun b' => (b', [], SOk))) as FL.
  { cbn [map app flat]. rewrite E1. cbn [fbind]. rewrite map_app, <- app_assoc, flat_app by apply lines_no_stop.
    rewrite E2. cbn [fbind]. rewrite flat_app by apply lines_no_stop. rewrite E3. cbn [fbind].
    assert (flat U [FLine []] b3 = fbind (close_open b3) (fun b' => (b', [], SOk))) as ->.
    { cbn [flat]. assert (flat_line U [] b3 = fbind (close_open b3) (fun b' => (b', [], SOk))) as -> by reflexivity.
      rewrite fbind_ret. rewrite fbind_ret. reflexivity. }
    rewrite fbind_ret. now destruct (close_open b3) as [[? ?] ?]. }
  rewrite fbind_ret in FL. rewrite FL. rewrite (close_opened pt t1 p b3 O3).
  destruct (t_addPosting t1 p) as [T eo] eqn:AP.
  assert (elided_ok T) as WT by (eapply elided_ok_add; eassumption).
  split.
  - intros EL EX. unfold t_addPosting in AP. rewrite EL in AP. apply existsb_elided in EX. rewrite EX in TS.
    unfold seen in TS. destruct (t_elided t1); [|discriminate]. injection AP as <- <-. eauto.
  - intro NT. exists T. split; [exact WT|]. unfold t_addPosting in AP.
    assert (eo = None /\ T = Txn d s payee (kept false (before ++ [p])) (t_elided T) note notes) as [-> ET].
    { rewrite kept_app. cbn [orb kept]. unfold seen in TS. unfold elided in NT at 1. rewrite TP in AP. rewrite TE in AP.
      cbn [t_date t_state t_payee t_headernote t_notes t0] in AP.
      destruct (po_amount p) as [am|] eqn:PA.
      - injection AP as <- <-. split; reflexivity.
      - destruct (existsb _ before) eqn:EX; [exfalso; apply NT; split; [reflexivity|now apply existsb_elided]|].
        destruct (t_elided t1) eqn:TT; [discriminate|]. cbn [t_elided] in AP. injection AP as <- <-. split; reflexivity. }
    split; [rewrite EP; exact ET|]. destruct (t_close T) as [t' [e|]]; [eauto|].
    eexists. split; [reflexivity|]. reflexivity.
Qed.

(** ** As a file *)
Lemma text_lines : forall ls, Forall readable ls -> file_lines (text_of ls) = map Line ls.
Proof.
  induction 1 as [|l ls (N & CRL & L) F IH]; [reflexivity|]. cbn [text_of flat_map map].
  pose proof (file_lines_inserted [] l (text_of ls) (or_introl eq_refl) N L) as X. cbn [app] in X. rewrite <- app_assoc.
  refine (eq_trans X _). change (file_lines []) with (@nil line). cbn [app]. rewrite IH, chop_cr_id by assumption. reflexivity.
Qed.

Lemma expand_plain_lines : forall inc hint ls, Forall (fun l => included U hint l = None) ls ->
  expand_lines U inc hint false (map Line ls) = map FLine ls ++ [FLine []].
Proof.
  intros inc hint. induction 1 as [|l ls E F IH]; [reflexivity|]. cbn [map expand_lines app]. now rewrite E, IH.
Qed.

Lemma expand_text : forall fs depth hint ls, Forall readable ls -> Forall (fun l => included U hint l = None) ls ->
  expand U fs depth hint (File (text_of ls) false) = map FLine ls ++ [FLine []].
Proof.
  intros fs depth hint ls R F. destruct depth; cbn [expand f_bytes f_bad]; rewrite text_lines by assumption; now apply expand_plain_lines.
Qed.

Lemma txn_not_included : forall hint ls t, txn_written U ls t -> Forall (fun l => included U hint l = None) ls.
Proof.
  assert (forall hint ls cs, Forall2 remark_written ls cs -> Forall (fun l => included U hint l = None) ls) as RK.
  { intros hint ls cs H. induction H as [|l n ls cs R F IH]; constructor; [|assumption].
    destruct (remark_lexed hint l n R) as (rs & E & _). unfold included. now rewrite E. }
  intros hint ls t TW. destruct TW as [h d s payee note nl notes pl ps HW NW PW NE]. constructor.
  - destruct (header_lexed hint h d s payee note HW) as (w & rp & nts & E & _ & _ & [[-> _]|(rn & -> & _)]); unfold included; rewrite E; now destruct s.
  - apply Forall_app. split; [eauto|]. clear NE. induction PW as [|l q ls cs ls' ps W F PW IH]; constructor.
    + destruct (posting_lexed hint l q W) as (a & am & E & _). unfold included. rewrite E.
      unfold posting_items. destruct am as [[? ?]|]; reflexivity.
    + apply Forall_app. split; eauto.
Qed.
End Body.
