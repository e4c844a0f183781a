(** * C43: what any printed transaction reads back as *)
From Verif Require Import Base BaseFacts Utf8 Utf8Facts Unicode GoTime Strconv Display Journal Lexer Parser ParserFacts FlatSpec FlatFacts
  Account Reporting Cmd Spec TextSpec DateFacts DisplayFacts AmountFacts JournalText JournalFacts BuilderFacts BodyFacts WholeFacts LexedFacts PrintFacts OriginFacts
  CmdSpec StreamFacts CmdFacts Sample PropsCmd PropsPrint.

(** Each printing puts a space before a note or comment of nothing but spaces; any
    other is kept. *)
Definition grown (n n' : str) : Prop := (blank n /\ n' = c_space :: n) \/ (~ blank n /\ n' = n).

(** The transaction read back: everything as it was, but for blank notes and
    comments, and a note on a header without payee, which loses a character. *)
Record reread (t t' : transaction) : Prop := Reread {
  rr_date : t_date t' = t_date t;
  rr_state : t_state t' = t_state t;
  rr_payee : t_payee t' = t_payee t;
  rr_elided : t_elided t' = None;
  rr_header : (t_headernote t = [] /\ t_headernote t' = []) \/
    (t_headernote t <> [] /\ t_payee t <> [] /\ grown (t_headernote t) (t_headernote t')) \/
    (t_headernote t <> [] /\ t_payee t = [] /\ lost (c_space :: t_headernote t) (t_headernote t'));
  rr_notes : Forall2 grown (t_notes t) (t_notes t');
  rr_postings : Forall2 (fun p p' => po_account p' = po_account p /\ po_amount p' = po_amount p /\ Forall2 grown (po_comments p) (po_comments p'))
    (t_postings t) (t_postings t') }.

(** Every amount is there and small enough. *)
Definition amounts_fit (t : transaction) : Prop :=
  Forall (fun p => exists c q, po_amount p = Some (Amount c q) /\ Z.abs q <= 100 * 2 ^ 46) (t_postings t).
(** ... and the line reader takes every printed line. *)
Definition legible (t : transaction) : Prop := amounts_fit t /\ short_lines (transaction_string t).
Lemma reprintable_legible : forall t, reprintable t -> legible t.
Proof. intros t [A _ _ _ L]. split; assumption. Qed.

Lemma blank_dec : forall s, blank s \/ ~ blank s.
Proof. intro s. destruct (blankb s) eqn:B; [left; now apply blankb_iff|right]. intro X. apply blankb_iff in X. congruence. Qed.

Lemma remark_any : forall k n, note_ok n -> exists n', grown n n' /\ remark_written (spaces (2 + k) ++ [59] ++ spaces 1 ++ n) n'.
Proof.
  intros k n H. destruct (blank_dec n) as [B|B].
  - exists (c_space :: n). split; [now left|]. apply (BlankRemark k 59 (c_space :: n)); [now left|]. constructor; [reflexivity|exact B].
  - exists n. split; [now right|]. apply (RemarkLine k 59 1 n); [now left|]. now apply note_fit.
Qed.
Lemma remarks_any : forall k ns, Forall note_ok ns ->
  exists ns', Forall2 grown ns ns' /\ Forall2 remark_written (map (fun n => spaces (2 + k) ++ [59] ++ spaces 1 ++ n) ns) ns'.
Proof.
  intro k. induction 1 as [|n ns H _ (ns' & G & W)]; [exists []; split; constructor|].
  destruct (remark_any k n H) as (n' & G' & W'). exists (n' :: ns'). split; constructor; assumption.
Qed.

Lemma front_spaces : forall rs : list Z, blank rs \/ exists k r, rs = repeat c_space k ++ r /\ remark r.
Proof.
  induction rs as [|x rs IH]; [left; constructor|]. destruct (Z.eq_dec x c_space) as [->|N].
  - destruct IH as [B|(k & r & -> & R)]; [left; now constructor|]. right. exists (S k), r. auto.
  - right. exists 0%nat, (x :: rs). split; [reflexivity|]. split; [discriminate|exact N].
Qed.
Lemma lost_any : forall n, note_ok n -> n <> [] -> exists n', lost (c_space :: n) n'.
Proof.
  intros n H N. destruct (blank_dec n) as [B|B]; [exists n; now constructor|].
  destruct (note_fit n H B) as [(rs & V & (R1 & R2) & ->) _]. destruct rs as [|x rs]; [congruence|]. inversion_clear V as [|? ? Vx V'].
  change (encode (x :: rs)) with (encode ([x] ++ rs)). rewrite encode_app.
  destruct (front_spaces rs) as [Bl|(k & r & -> & R)].
  - exists rs. rewrite (encode_ascii rs) by now apply blank_ascii. apply (LostRest 1 x rs); assumption.
  - exists (encode r). apply Forall_app in V' as [_ Vr]. rewrite encode_app, (encode_ascii (repeat c_space k)) by apply (spaces_ascii k).
    apply (LostLetter 1 x k (encode r)); [assumption..|]. exists r. auto.
Qed.

Lemma header_any : forall t, heading_ok t ->
  exists h, ((t_headernote t = [] /\ h = []) \/ (t_headernote t <> [] /\ t_payee t <> [] /\ grown (t_headernote t) h) \/
     (t_headernote t <> [] /\ t_payee t = [] /\ lost (c_space :: t_headernote t) h)) /\
    header_written (header_line t) (t_date t) (t_state t) (t_payee t) h.
Proof.
  intros t [[R Y] [P _] H _]. pose proof (format_ymd _ R Y) as W. unfold header_line.
  assert (CS : comment_sign 59) by now left.
  destruct (t_headernote t) as [|b n] eqn:En.
  - exists []. split; [now left|]. rewrite app_nil_r. destruct (t_state t).
    + exact (HeaderPayee 45 _ _ NoState 2 0 _ (or_introl eq_refl) W R P).
    + exact (HeaderPayee 45 _ _ UnclearedState 0 1 _ (or_introl eq_refl) W R P).
    + exact (HeaderPayee 45 _ _ ClearedState 0 1 _ (or_introl eq_refl) W R P).
  - rewrite <- En in *. assert (N : t_headernote t <> []) by (rewrite En; discriminate).
    assert (Pn : t_payee t = [] \/ (t_payee t <> [] /\ spelt (payee_text (t_state t)) (t_payee t))).
    { destruct P as (rs & V & [->|K] & E); [now left|right]. split; [|now exists rs]. rewrite E. destruct K as [[K _] _].
      destruct rs as [|r rs]; [contradiction|]. cbn [encode flat_map]. intro Z. apply app_eq_nil in Z as [Z _]. exact (encode_rune_nonempty r Z). }
    destruct Pn as [Pn|[Pn P']].
    + destruct (lost_any _ H N) as (h & L). exists h. split; [right; right; auto|]. rewrite Pn. destruct (t_state t).
      * exact (HeaderBare 45 _ _ NoState 6 0 59 (c_space :: t_headernote t) h (or_introl eq_refl) W R CS L).
      * exact (HeaderBare 45 _ _ UnclearedState 0 5 59 (c_space :: t_headernote t) h (or_introl eq_refl) W R CS L).
      * exact (HeaderBare 45 _ _ ClearedState 0 5 59 (c_space :: t_headernote t) h (or_introl eq_refl) W R CS L).
    + destruct (blank_dec (t_headernote t)) as [B|B].
      * exists (c_space :: t_headernote t). split; [right; left; split; [exact N|split; [exact Pn|now left]]|].
        assert (B' : blank (c_space :: t_headernote t)) by (constructor; [reflexivity|exact B]). destruct (t_state t).
        -- exact (HeaderBlank 45 _ _ NoState 2 0 _ 2 59 _ (or_introl eq_refl) W R P' CS B').
        -- exact (HeaderBlank 45 _ _ UnclearedState 0 1 _ 2 59 _ (or_introl eq_refl) W R P' CS B').
        -- exact (HeaderBlank 45 _ _ ClearedState 0 1 _ 2 59 _ (or_introl eq_refl) W R P' CS B').
      * exists (t_headernote t). split; [right; left; split; [exact N|split; [exact Pn|now right]]|].
        destruct (note_fit _ H B) as [Nf _]. destruct (t_state t).
        -- exact (HeaderNote 45 _ _ NoState 2 0 _ 2 59 1 _ (or_introl eq_refl) W R P' CS Nf).
        -- exact (HeaderNote 45 _ _ UnclearedState 0 1 _ 2 59 1 _ (or_introl eq_refl) W R P' CS Nf).
        -- exact (HeaderNote 45 _ _ ClearedState 0 1 _ 2 59 1 _ (or_introl eq_refl) W R P' CS Nf).
Qed.

Lemma postings_any : forall U ps, Forall (posting_ok U) ps ->
  Forall (fun p => exists c q, po_amount p = Some (Amount c q) /\ Z.abs q <= 100 * 2 ^ 46) ps ->
  exists ps', Forall2 (fun p p' => po_account p' = po_account p /\ po_amount p' = po_amount p /\ Forall2 grown (po_comments p) (po_comments p')) ps ps' /\
    postings_written U (flat_map posting_lines ps) ps'.
Proof.
  intros U. induction ps as [|p ps IH]; intros F A; [exists []; split; constructor|].
  inversion_clear F as [|? ? (Ac & Co & Am) F']. inversion_clear A as [|? ? (c & q & E & B) A'].
  destruct (IH F' A') as (ps' & G & W). destruct (remarks_any 4 (po_comments p) Co) as (cs & Gc & Wc). destruct (Am _ E) as [Sc _].
  exists (with_comments (Posting [] (po_account p) (Some (Amount c q))) cs :: ps'). split; [constructor; [cbn; auto|exact G]|]. cbn [flat_map].
  assert (W1 : posting_written U (posting_line p) (Posting [] (po_account p) (Some (Amount c q)))).
  { unfold posting_line. rewrite E. cbn [am_commodity am_quantity].
    apply (AmountLine U 2 _ 2 c (display_quantity q) q (proj1 Ac) Sc); [|unfold in_int64, two63; lia].
    apply money_amount. now apply display_money. }
  exact (MorePostings U _ _ _ _ _ _ W1 Wc W).
Qed.

Lemma lines_any : forall U t, final_ok U t -> amounts_fit t -> Forall (fun l => ~ In 10 l) (header_line t :: body_lines t).
Proof.
  intros U t ([[R Y] [_ P] [_ H] N] & _ & Ps) A.
  assert (F : Forall (posting_ok U) (t_postings t)).
  { destruct Ps as [F|E]; [exact F|]. unfold amounts_fit in A. rewrite E in A. inversion_clear A as [|? ? X _]. destruct X as (c & q & X & _). discriminate. }
  pose proof (ymd_no_lf _ _ (format_ymd _ R Y)) as W. constructor.
  - assert (S1 : ~ In 10 (stateToString (t_state t))) by (destruct (t_state t); cbn; intuition congruence).
    unfold header_line. rewrite !not_in_app. repeat split; auto; try apply spaces_no_lf.
    destruct (t_headernote t) as [|b n]; [auto|]. rewrite !not_in_app. repeat split; auto; try apply spaces_no_lf. cbn. intuition congruence.
  - unfold body_lines. apply Forall_app. split.
    + apply Forall_forall. intros l I. apply in_map_iff in I as (n & <- & I). rewrite Forall_forall in N. now apply remark_line_no_lf, N.
    + apply Forall_forall. intros l I. apply in_flat_map in I as (p & Ip & I). rewrite Forall_forall in F. destruct (F p Ip) as ((_ & Ac) & Co & Am).
      unfold amounts_fit in A. rewrite Forall_forall in A. destruct (A p Ip) as (c & q & E & B).
      destruct I as [<-|I].
      * unfold posting_line. rewrite E. cbn [am_commodity am_quantity]. destruct (Am _ E) as [_ C]. cbn in C.
        pose proof (amount_no_lf _ _ (money_amount _ _ (display_money q B))) as D. rewrite !not_in_app. repeat split; auto; apply spaces_no_lf.
      * apply in_map_iff in I as (n & <- & I). rewrite Forall_forall in Co. now apply remark_line_no_lf, Co.
Qed.

Lemma total_same : forall ps ps' (R : list str -> list str -> Prop), Forall2 (fun p p' => po_account p' = po_account p /\ po_amount p' = po_amount p /\ R (po_comments p) (po_comments p')) ps ps' ->
  total ps' = total ps.
Proof.
  intros ps ps' R H. induction H as [|p p' ps ps' (_ & E & _) _ IH]; [reflexivity|].
  change (quantity p' + total ps' = quantity p + total ps). rewrite IH. unfold quantity. now rewrite E.
Qed.

Lemma one_any : forall U t, final_ok U t -> zero64 (total (t_postings t)) -> amounts_fit t -> short_lines (transaction_string t) ->
  exists t', reread t t' /\ complete t' /\ txn_written U (header_line t :: body_lines t) t' /\
    Forall JournalText.readable (header_line t :: body_lines t) /\ transaction_string t = text_of (header_line t :: body_lines t).
Proof.
  intros U t Fo Z A Sh. pose proof (lines_any U t Fo A) as NL. destruct Fo as (Hd & Ne & Ps).
  assert (F : Forall (posting_ok U) (t_postings t)).
  { destruct Ps as [F|E]; [exact F|]. unfold amounts_fit in A. rewrite E in A. inversion_clear A as [|? ? X _]. destruct X as (c & q & X & _). discriminate. }
  assert (Am : Forall (fun p => po_amount p <> None) (t_postings t)).
  { eapply Forall_impl; [|exact A]. intros p (c & q & E & _). congruence. }
  pose proof (transaction_lines t Am) as TL.
  destruct (header_any t Hd) as (h & Hh & HW). destruct (remarks_any 2 (t_notes t) (ok_notes t Hd)) as (ns & G & NW).
  destruct (postings_any U (t_postings t) F A) as (ps & Gp & PW).
  exists (Txn (t_date t) (t_state t) (t_payee t) ps None h ns). split; [constructor; auto|].
  split; [|split; [apply TxnWritten; [exact HW|exact NW|exact PW|]|split; [|exact TL]]].
  - split; [reflexivity|]. cbn [t_postings]. split; [|now rewrite (total_same _ _ _ Gp)].
    clear - Gp Am. induction Gp as [|p p' l l' (_ & E & _) _ IH]; [constructor|]. inversion_clear Am. constructor; [congruence|auto].
  - intros ->. inversion Gp as [E|]. now rewrite <- E in Ne.
  - unfold short_lines in Sh. rewrite TL, split_text_of in Sh by exact NL.
    rewrite Forall_app in Sh. destruct Sh as [L _]. rewrite Forall_forall in L, NL. apply Forall_forall. intros l I.
    destruct (L l I) as [L1 L2]. split; [now apply NL|]. auto.
Qed.

Lemma all_any : forall U ts, Forall (fun t => final_ok U t /\ zero64 (total (t_postings t))) ts -> Forall legible ts ->
  exists ts' ls, Forall2 reread ts ts' /\ printed ts = text_of ls /\ journal_written U ls ts' /\ Forall JournalText.readable ls /\ Forall complete ts'.
Proof.
  intro U. induction ts as [|t ts IH]; intros F A.
  - exists [], []. repeat split; constructor.
  - inversion_clear F as [|? ? [F1 F2] F']. inversion_clear A as [|? ? [A1 S1] A'].
    destruct (IH F' A') as (ts' & ls & G & E & W & R & C). destruct (one_any U t F1 F2 A1 S1) as (t' & G1 & C1 & W1 & R1 & E1).
    exists (t' :: ts'), ((header_line t :: body_lines t) ++ [] :: ls). split; [now constructor|]. split; [|split; [|split]].
    + unfold printed in *. cbn [map concat]. rewrite E, text_of_app, E1, <- app_assoc. reflexivity.
    + apply MoreTxns; assumption.
    + apply Forall_app. split; [exact R1|]. constructor; [|exact R]. split; [intros []|]. split; [discriminate|reflexivity].
    + now constructor.
Qed.

(** Any transactions delivered, printed one after the other, read back.  Missing:
    amounts left open or too large, and lines the line reader cannot take. *)
Theorem C43_exactly_partial : forall U fs depth hint ts,
  Forall (fun t => exists fs0 depth0 hint0 f0 path, In (ETxn t path) (fst (trace U fs0 depth0 hint0 f0))) ts ->
  Forall legible ts ->
  exists ts', Forall2 reread ts ts' /\
    trace U fs depth hint (File (concat (lines (map transaction_string ts))) false) = (map (fun t => ETxn t hint) ts', SOk).
Proof.
  intros U fs depth hint ts D A.
  assert (F : Forall (fun t => final_ok U t /\ zero64 (total (t_postings t))) ts).
  { eapply Forall_impl; [|exact D]. intros t (fs0 & d0 & h0 & f0 & p & J). exact (delivered_ok _ _ _ _ _ _ _ J). }
  destruct (all_any U ts F A) as (ts' & ls & G & E & W & R & C). exists ts'. split; [exact G|].
  assert (E' : concat (lines (map transaction_string ts)) = text_of ls) by (rewrite <- E; unfold lines, printed; now rewrite map_map).
  rewrite E'. exact (written_read U fs depth hint ls ts' W R C).
Qed.

(** The same for the command. *)
Theorem C43_print_exactly_partial : forall E O fs, sane_clock E -> orders E -> sorts E -> filters_for E (o_args O) fs -> CmdSpec.readable E O ->
  exists sel ts out, picks E O fs (txns 0 (fst (stream E O))) sel /\ Permutation ts (selected sel) /\
    print_cmd E O = Outcome out SOk /\
    (Forall legible ts -> exists ts', Forall2 reread ts ts' /\ forall fs' depth hint,
      trace (e_unicode E) fs' depth hint (File (concat out) false) = (map (fun t => ETxn t hint) ts', SOk)).
Proof.
  intros E O fs C Or So F R. destruct (C42_print E O fs C Or So F) as [K _]. destruct (K R) as (sel & ts & P & Pm & _ & Pr).
  exists sel, ts, (lines (map transaction_string ts)). split; [exact P|]. split; [exact Pm|]. split; [exact Pr|].
  intros A.
  assert (D : Forall (fun t => final_ok (e_unicode E) t /\ zero64 (total (t_postings t))) ts).
  { apply Forall_forall. intros t I.
    apply (Permutation_in _ Pm) in I. apply in_map_iff in I as ([u ps] & <- & I). apply (picks_in _ _ _ _ _ _ _ P) in I as (I & _).
    apply txns_in in I. unfold stream in I. destruct (journal_path E O) as [path|]; [|destruct I]. destruct (e_fs E path) as [f|] eqn:Ef; [|destruct I].
    cbn [fst u_txn] in *. exact (delivered_ok _ _ _ _ _ _ _ I). }
  destruct (all_any (e_unicode E) ts D A) as (ts' & ls & G & Et & W & Rd & Cm). exists ts'. split; [exact G|]. intros fs' depth hint.
  assert (E' : concat (lines (map transaction_string ts)) = text_of ls) by (rewrite <- Et; unfold lines, printed; now rewrite map_map).
  rewrite E'. exact (written_read _ fs' depth hint ls ts' W Rd Cm).
Qed.

(** A note of one space, a note on a header without payee, an empty comment. *)
Definition text_blank : str :=
  lit "2021-03-01 ;note" ++ [10] ++ lit "    x    $1" ++ [10] ++ lit "  ;" ++ [10] ++ lit "    y    $-1" ++ [10; 10] ++
  lit "2021-03-02 A  ; " ++ [10] ++ lit "  ; kept" ++ [10] ++ lit "    x    $1" ++ [10] ++ lit "    y" ++ [10].
Definition legibleb (t : transaction) : bool :=
  forallb (fun p => match po_amount p with Some a => Z.abs (am_quantity a) <=? 100 * 2 ^ 46 | None => false end) (t_postings t) &&
  forallb (fun l => (Z.of_nat (length l) <? 4096) && negb (last l 0 =? 13)) (split 10 (transaction_string t)).
Lemma legibleb_ok : forall ts, forallb legibleb ts = true -> Forall legible ts.
Proof.
  intros ts H. rewrite forallb_forall in H. apply Forall_forall. intros t I. specialize (H t I). unfold legibleb in H.
  apply andb_true_iff in H as [A E]. rewrite forallb_forall in A, E. split; apply Forall_forall.
  - intros p Ip. specialize (A p Ip). destruct (po_amount p) as [[c q]|]; [|discriminate]. exists c, q. split; [reflexivity|]. now apply Z.leb_le in A.
  - intros l Il. specialize (E l Il). apply andb_true_iff in E as [E1 E2]. split; [now apply Z.ltb_lt|]. now apply negb_true_iff, Z.eqb_neq in E2.
Qed.
Example C43_exactly_example : 
  Forall (fun t => exists fs0 depth0 hint0 f0 path, In (ETxn t path) (fst (trace U0 fs0 depth0 hint0 f0))) (txns_of text_blank) /\
  Forall legible (txns_of text_blank) /\
  map t_headernote (txns_of text_blank) = [lit "ote"; lit " "] /\
  map t_headernote (txns_of (concat (lines (map transaction_string (txns_of text_blank))))) = [lit "te"; lit "  "] /\
  map (fun t => map po_comments (t_postings t)) (txns_of (concat (lines (map transaction_string (txns_of text_blank))))) = [[[lit " "]; []]; [[]; []]].
Proof.
  split; [apply Forall_forall; intros t; apply txns_of_delivered|].
  split; [apply legibleb_ok; vm_compute; reflexivity|].
  repeat split; vm_compute; reflexivity.
Qed.
