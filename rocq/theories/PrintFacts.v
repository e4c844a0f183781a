(** * What print writes is a journal *)
From Verif Require Import Base BaseFacts Utf8 Utf8Facts Unicode GoTime Strconv Display Journal Lexer Parser Spec TextSpec
  DateFacts DisplayFacts AmountFacts JournalText.

(** ** The lines *)
Definition posting_line (p : posting) : str :=
  match po_amount p with
  | Some a => spaces 4 ++ po_account p ++ spaces 4 ++ am_commodity a ++ display_quantity (am_quantity a)
  | None => []
  end.
Definition note_line (n : str) : str := spaces 4 ++ [59] ++ spaces 1 ++ n.
Definition comment_line (c : str) : str := spaces 6 ++ [59] ++ spaces 1 ++ c.
Definition posting_lines (p : posting) : list str := posting_line p :: map comment_line (po_comments p).
Definition header_line (t : transaction) : str :=
  format_date (t_date t) ++ spaces 1 ++ stateToString (t_state t) ++ spaces 1 ++ t_payee t ++
  match t_headernote t with [] => [] | n => spaces 4 ++ [59] ++ spaces 1 ++ n end.
Definition body_lines (t : transaction) : list str := map note_line (t_notes t) ++ flat_map posting_lines (t_postings t).

Definition after (ls : list str) : str := flat_map (fun l => 10 :: l) ls.

Lemma text_after : forall ls h, h ++ after ls ++ [10] = text_of (h :: ls).
Proof.
  unfold after, text_of. induction ls as [|l ls IH]; intro h; cbn [flat_map]; [now rewrite app_nil_r|].
  rewrite <- !app_assoc. cbn [app]. f_equal. f_equal. specialize (IH l). cbn [flat_map] in IH. rewrite <- !app_assoc in IH. exact IH.
Qed.

Lemma fold_lines : forall {A} (f : A -> list str) (g : str -> A -> str) xs rs,
  (forall r x, In x xs -> g r x = r ++ after (f x)) -> fold_left g xs rs = rs ++ after (flat_map f xs).
Proof.
  intros A f g. induction xs as [|x xs IH]; intros rs H; cbn [fold_left flat_map]; [unfold after; cbn; now rewrite app_nil_r|].
  rewrite IH by (intros; apply H; now right). rewrite H by now left. unfold after. rewrite flat_map_app, <- app_assoc. reflexivity.
Qed.

Lemma flat_single : forall {A} (f : A -> str) xs, flat_map (fun x => [f x]) xs = map f xs.
Proof. intros A f. induction xs as [|x xs IH]; cbn; [reflexivity|now rewrite IH]. Qed.

Lemma transaction_lines : forall t, Forall (fun p => po_amount p <> None) (t_postings t) ->
  transaction_string t = text_of (header_line t :: body_lines t).
Proof.
  intros t F. rewrite <- text_after. unfold transaction_string. unfold body_lines.
  rewrite (fold_lines posting_lines).
  2:{ intros r p I. rewrite Forall_forall in F. specialize (F p I). unfold posting_string, posting_lines, posting_line.
      destruct (po_amount p) as [a|]; [|contradiction].
      rewrite (fold_lines (fun c => [comment_line c])).
      2:{ intros r' c _. unfold after, comment_line, spaces. cbn [flat_map repeat app]. now rewrite app_nil_r. }
      rewrite flat_single. unfold after. cbn [flat_map]. unfold displayableQuantity. cbn [app]. rewrite <- ?app_assoc. cbn [app]. rewrite <- ?app_assoc. reflexivity. }
  rewrite (fold_lines (fun n => [note_line n])).
  2:{ intros r' c _. unfold after, note_line, spaces. cbn [flat_map repeat app]. now rewrite app_nil_r. }
  rewrite flat_single. unfold after. rewrite flat_map_app, <- !app_assoc. f_equal.
  unfold header_line. destruct (t_headernote t); rewrite <- ?app_assoc; cbn [app]; rewrite ?app_nil_r; reflexivity.
Qed.

(** ** They are written as the journal asks for *)
Lemma two_digits_numeral : forall n, 0 <= n <= 99 -> numeral 2 (two_digits n) n.
Proof.
  intros n H. unfold two_digits.
  pose proof (Z.div_mod n 10 ltac:(lia)) as A. pose proof (Z.mod_pos_bound n 10 ltac:(lia)).
  assert (0 <= n / 10) by (apply Z.div_pos; lia). assert (n / 10 < 10) by (apply Z.div_lt_upper_bound; lia).
  split; [reflexivity|]. split; [repeat constructor; unfold digit; lia|].
  unfold numeral_value. cbn [fold_left]. lia.
Qed.

Lemma four_digits_numeral : forall n, 0 <= n <= 9999 -> numeral 4 (four_digits n) n.
Proof.
  intros n H. unfold four_digits.
  pose proof (Z.div_mod n 10 ltac:(lia)) as A. pose proof (Z.div_mod (n / 10) 10 ltac:(lia)) as B.
  pose proof (Z.div_mod (n / 100) 10 ltac:(lia)) as C.
  pose proof (Z.mod_pos_bound n 10 ltac:(lia)). pose proof (Z.mod_pos_bound (n / 10) 10 ltac:(lia)).
  pose proof (Z.mod_pos_bound (n / 100) 10 ltac:(lia)).
  assert (E1 : n / 100 = n / 10 / 10) by (rewrite Z.div_div; [reflexivity|lia|lia]).
  assert (E2 : n / 1000 = n / 100 / 10) by (rewrite Z.div_div; [reflexivity|lia|lia]).
  assert (0 <= n / 1000) by (apply Z.div_pos; lia).
  assert (n / 1000 < 10) by (apply Z.div_lt_upper_bound; lia).
  split; [reflexivity|]. split; [repeat constructor; unfold digit; lia|].
  unfold numeral_value. cbn [fold_left]. lia.
Qed.

Lemma format_ymd : forall d, real_date d -> 0 <= d_year d <= 9999 -> ymd_text 45 d (format_date d).
Proof.
  intros d R Y. unfold format_date. apply YMD; [now apply four_digits_numeral|apply two_digits_numeral|apply two_digits_numeral].
  - apply real_date_month in R. lia.
  - unfold real_date in R. lia.
Qed.

Lemma header_line_written : forall U t, fit U t ->
  header_written (header_line t) (t_date t) (t_state t) (t_payee t) (t_headernote t).
Proof.
  intros U t F. destruct (fit_date U t F) as [R Y]. pose proof (format_ymd _ R Y) as W.
  destruct (fit_payee U t F) as [P _]. unfold header_line.
  destruct (fit_header U t F) as [E|(NE & N & _)].
  - rewrite E, app_nil_r. destruct (t_state t).
    + exact (HeaderPayee 45 _ _ NoState 2 0 _ (or_introl eq_refl) W R P).
    + exact (HeaderPayee 45 _ _ UnclearedState 0 1 _ (or_introl eq_refl) W R P).
    + exact (HeaderPayee 45 _ _ ClearedState 0 1 _ (or_introl eq_refl) W R P).
  - assert (P' : spelt (payee_text (t_state t)) (t_payee t)).
    { destruct P as (rs & V & [->|K] & E); [now rewrite E in NE|]. exists rs. auto. }
    destruct N as (n & Vn & Rn & En).
    assert (NN : t_headernote t <> []).
    { rewrite En. destruct Rn as [Hn _]. destruct n as [|r n]; [contradiction|]. cbn [encode flat_map].
      inversion_clear Vn. intro Z. apply app_eq_nil in Z as [Z _]. exact (encode_rune_nonempty r Z). }
    assert (N : spelt remark (t_headernote t)) by (exists n; auto).
    destruct (t_headernote t) as [|b hn] eqn:Eh; [contradiction|].
    assert (CS : comment_sign 59) by (unfold comment_sign; auto).
    destruct (t_state t).
    + exact (HeaderNote 45 _ _ NoState 2 0 _ 2 59 1 _ (or_introl eq_refl) W R P' CS N).
    + exact (HeaderNote 45 _ _ UnclearedState 0 1 _ 2 59 1 _ (or_introl eq_refl) W R P' CS N).
    + exact (HeaderNote 45 _ _ ClearedState 0 1 _ 2 59 1 _ (or_introl eq_refl) W R P' CS N).
Qed.

Lemma note_lines_written : forall ns, Forall (fun n => spelt remark n /\ ~ In 10 n) ns ->
  Forall2 remark_written (map note_line ns) ns.
Proof.
  induction 1 as [|n ns [S _] _ IH]; cbn [map]; constructor; [|exact IH].
  exact (RemarkLine 2 59 1 n (or_introl eq_refl) S).
Qed.
Lemma comment_lines_written : forall ns, Forall (fun n => spelt remark n /\ ~ In 10 n) ns ->
  Forall2 remark_written (map comment_line ns) ns.
Proof.
  induction 1 as [|n ns [S _] _ IH]; cbn [map]; constructor; [|exact IH].
  exact (RemarkLine 4 59 1 n (or_introl eq_refl) S).
Qed.

Lemma posting_lines_written : forall U ps, Forall (fit_posting U) ps ->
  postings_written U (flat_map posting_lines ps) ps.
Proof.
  intro U. induction 1 as [|p ps (A & _ & C & c & q & E & Sc & _ & B) _ IH]; cbn [flat_map]; [constructor|].
  assert (W : posting_written U (posting_line p) (Posting [] (po_account p) (Some (Amount c q)))).
  { unfold posting_line. rewrite E. cbn [am_commodity am_quantity].
    apply (AmountLine U 2 _ 2 c (display_quantity q) q A Sc); [|unfold in_int64, two63; lia].
    apply money_amount. now apply display_money. }
  pose proof (MorePostings U _ _ _ _ _ _ W (comment_lines_written _ C) IH) as M.
  unfold with_comments in M. cbn in M. rewrite <- E in M. destruct p. exact M.
Qed.

Lemma fit_written : forall U t, fit U t -> txn_written U (header_line t :: body_lines t) (written_out t).
Proof.
  intros U t F. apply TxnWritten.
  - eapply header_line_written, F.
  - apply note_lines_written, F.
  - apply posting_lines_written, F.
  - apply F.
Qed.

Lemma fit_complete : forall U t, fit U t -> complete (written_out t).
Proof.
  intros U t F. split; [reflexivity|]. split; [|apply F]. eapply Forall_impl; [|apply (fit_postings U t F)].
  intros p (_ & _ & _ & c & q & E & _). congruence.
Qed.

(** ** The line reader gives them back *)
Lemma not_in_app : forall (x : Z) a b, ~ In x (a ++ b) <-> ~ In x a /\ ~ In x b.
Proof. intros. rewrite in_app_iff. tauto. Qed.

Lemma digits_no_lf : forall w, Forall digit w -> ~ In 10 w.
Proof. intros w F I. rewrite Forall_forall in F. specialize (F _ I). unfold digit in F. lia. Qed.

Lemma amount_no_lf : forall w q, amount_text w q -> ~ In 10 w.
Proof.
  intros w q [sg m w' SG N D|sg m w' c k SG N D (L & D' & V)]; rewrite !not_in_app; repeat split; try (now apply digits_no_lf);
    try (inversion SG; cbn; intuition congruence); cbn; intuition congruence.
Qed.

Lemma ymd_no_lf : forall d w, ymd_text 45 d w -> ~ In 10 w.
Proof.
  intros d w [y m dd (_ & A & _) (_ & B & _) (_ & C & _)]. rewrite !not_in_app.
  repeat split; try (now apply digits_no_lf); cbn; intuition congruence.
Qed.

Lemma spaces_no_lf : forall k, ~ In 10 (spaces k).
Proof. intros k I. apply repeat_spec in I. discriminate. Qed.

Lemma header_line_no_lf : forall U t, fit U t -> ~ In 10 (header_line t).
Proof.
  intros U t F. destruct (fit_date U t F) as [R Y]. pose proof (ymd_no_lf _ _ (format_ymd _ R Y)) as W.
  destruct (fit_payee U t F) as [_ P].
  assert (S1 : ~ In 10 (stateToString (t_state t))) by (destruct (t_state t); cbn; intuition congruence).
  unfold header_line. rewrite !not_in_app. repeat split; auto; try apply spaces_no_lf.
  destruct (fit_header U t F) as [->|(_ & _ & N)]; [auto|].
  destruct (t_headernote t) as [|b n]; [auto|]. rewrite !not_in_app. repeat split; auto; try apply spaces_no_lf.
  cbn. intuition congruence.
Qed.

Lemma remark_line_no_lf : forall k n, ~ In 10 n -> ~ In 10 (spaces k ++ [59] ++ spaces 1 ++ n).
Proof.
  intros k n A. rewrite !not_in_app. repeat split; auto; try apply spaces_no_lf. cbn. intuition congruence.
Qed.

Lemma posting_line_no_lf : forall U p, fit_posting U p -> ~ In 10 (posting_line p).
Proof.
  intros U p (_ & A & _ & c & q & E & _ & C & B). unfold posting_line. rewrite E. cbn [am_commodity am_quantity].
  pose proof (amount_no_lf _ _ (money_amount _ _ (display_money q B))) as D.
  rewrite !not_in_app. repeat split; auto; apply spaces_no_lf.
Qed.

Lemma body_lines_no_lf : forall U t, fit U t -> Forall (fun l => ~ In 10 l) (body_lines t).
Proof.
  intros U t F. unfold body_lines. apply Forall_app. split.
  - apply Forall_forall. intros l I. apply in_map_iff in I as (n & <- & I).
    pose proof (fit_notes U t F) as G. rewrite Forall_forall in G. now apply remark_line_no_lf, G.
  - apply Forall_forall. intros l I. apply in_flat_map in I as (p & Ip & I).
    pose proof (fit_postings U t F) as G. rewrite Forall_forall in G. specialize (G p Ip).
    destruct I as [<-|I]; [now apply posting_line_no_lf with U|]. apply in_map_iff in I as (n & <- & I).
    destruct G as (_ & _ & C & _). rewrite Forall_forall in C. now apply remark_line_no_lf, C.
Qed.

Lemma split_text_of : forall ls, Forall (fun l => ~ In 10 l) ls -> split 10 (text_of ls) = ls ++ [[]].
Proof.
  induction 1 as [|l ls N _ IH]; [reflexivity|]. cbn [text_of flat_map app]. rewrite <- app_assoc. cbn [app].
  rewrite split_at_sep by assumption. f_equal. exact IH.
Qed.

Lemma fit_readable : forall U t, fit U t -> short_lines (transaction_string t) ->
  Forall readable (header_line t :: body_lines t).
Proof.
  intros U t F L. pose proof (fit_complete U t F) as (_ & N & _). cbn in N.
  assert (P : Forall (fun l => ~ In 10 l) (header_line t :: body_lines t)) by (constructor; [eapply header_line_no_lf, F|eapply body_lines_no_lf, F]).
  unfold short_lines in L. rewrite transaction_lines, split_text_of in L by assumption.
  rewrite Forall_app in L. destruct L as [L _]. rewrite Forall_forall in L, P. apply Forall_forall. intros l I.
  destruct (L l I) as [A B]. split; [now apply P|]. auto.
Qed.

(** The text print writes for the transactions. *)
Definition printed (ts : list transaction) : str := concat (map (fun t => transaction_string t ++ [10]) ts).

Lemma text_of_app : forall a b, text_of (a ++ b) = text_of a ++ text_of b.
Proof. intros. unfold text_of. apply flat_map_app. Qed.

Lemma printed_written : forall U ts, Forall (fit U) ts -> Forall (fun t => short_lines (transaction_string t)) ts ->
  exists ls, printed ts = text_of ls /\ journal_written U ls (map written_out ts) /\ Forall readable ls.
Proof.
  intro U. induction ts as [|t ts IH]; intros F L.
  - exists []. split; [reflexivity|]. split; constructor.
  - inversion_clear F as [|? ? F0 F1]. inversion_clear L as [|? ? L0 L1].
    destruct (IH F1 L1) as (ls & E & W & R). exists ((header_line t :: body_lines t) ++ [] :: ls). split; [|split].
    + unfold printed in *. cbn [map concat]. rewrite E, text_of_app. rewrite transaction_lines
        by apply (fit_complete U t F0). rewrite <- app_assoc. reflexivity.
    + apply MoreTxns; [now apply fit_written|exact W].
    + apply Forall_app. split; [now apply (fit_readable U)|]. constructor; [|exact R].
      split; [intros []|]. split; [discriminate|reflexivity].
Qed.
