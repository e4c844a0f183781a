(** * C88: dates and amounts may be spelled in any way *)
From Verif Require Import Base BaseFacts Utf8 Utf8Facts Unicode GoTime Strconv TextSpec Journal Lexer LexSpec LexerFacts LexText LexedFacts
  Parser ParserFacts FlatSpec FlatFacts Spec JournalText JournalFacts BuilderFacts LineFacts IncludeFacts PanicFacts WriteFacts DateFacts AmountFacts
  Cmd CmdSpec Unused Main Sample PropsParser PropsText PropsIgnored ProgramFacts PropsLayout.

(** Lines that say the same in another layout, with the date written with other
    separators, or the amount with another sign, more zeros, or no decimals. *)
Inductive reworded (U : unicode) : list Z -> list Z -> Prop :=
| RewordedLayout : forall rs rs', relaid U rs rs' -> reworded U rs rs'
| RewordedAmount : forall m m' a g g' c s s' n n' q t t', margin m -> margin m' -> account_text U a -> gap g -> gap g' -> commodity_text U c ->
    both_or_neither s s' -> amount_text n q -> amount_text n' q -> in_int64 q -> ignored_end t -> ignored_end t' ->
    reworded U (m ++ a ++ g ++ c ++ s ++ n ++ t) (m' ++ a ++ g' ++ c ++ s' ++ n' ++ t')
| RewordedDate : forall d d' day s s' k k' p t t', header_date d day -> header_date d' day -> white s -> white s' -> phrase p -> marks p k k' -> noted t t' ->
    reworded U (d ++ 32 :: s ++ k ++ p ++ t) (d' ++ 32 :: s' ++ k' ++ p ++ t').
Definition reworded_text (U : unicode) : str -> str -> Prop := line_by_line (reworded U).

Definition amount_char (r : Z) : Prop := digit r \/ r = 43 \/ r = 45 \/ r = 46.
Lemma amount_chars : forall n q, amount_text n q -> Forall amount_char n /\ n <> [] /\ (digit (hd 0 n) \/ hd 0 n = 45 \/ hd 0 n = 43).
Proof.
  assert (D : forall w, Forall digit w -> Forall amount_char w) by (intros w F; eapply Forall_impl; [|exact F]; now left).
  assert (H : forall sg m w r, sign_text sg m -> w <> [] -> Forall digit w -> sg ++ w ++ r <> [] /\ (digit (hd 0 (sg ++ w ++ r)) \/ hd 0 (sg ++ w ++ r) = 45 \/ hd 0 (sg ++ w ++ r) = 43)).
  { intros sg m w r SG N F. destruct w as [|x w]; [congruence|]. inversion_clear F. destruct SG; cbn; (split; [discriminate|auto]). }
  intros n q A. destruct A as [sg m w SG N F|sg m w c k SG N F (_ & F' & _)].
  - split; [|specialize (H sg m w [] SG N F); now rewrite app_nil_r in H]. apply Forall_app. split; [|now apply D].
    destruct SG; try (constructor; [unfold amount_char; lia|]); constructor.
  - split; [|now apply H with m]. rewrite !Forall_app. repeat split; auto.
    + destruct SG; try (constructor; [unfold amount_char; lia|]); constructor.
    + constructor; [unfold amount_char; lia|constructor].
Qed.
Lemma plain_phrase : forall rs, rs <> [] -> Forall (fun r => 43 <= r <= 57) rs -> phrase rs.
Proof.
  intros rs N F. split; [exact N|]. split; [split|split].
  - eapply Forall_impl; [|exact F]. intros r H. cbv beta in H. unfold breaks, isCommentIndicator, c_tab, c_semi, c_hash.
    repeat match goal with |- context [?a =? ?b] => destruct (Z.eqb_spec a b); [lia|] end. reflexivity.
  - clear N. induction F as [|r rs H F IH]; [reflexivity|]. cbv beta in H. cbn [single_spaced]. rewrite IH, andb_true_r. apply negb_true_iff. unfold c_space.
    destruct (Z.eqb_spec r 32); [lia|]. reflexivity.
  - destruct rs as [|r rs]; [congruence|]. inversion_clear F. cbn [hd]. unfold isSpace, between.
    repeat match goal with |- context [?a =? ?b] => destruct (Z.eqb_spec a b); [lia|] | |- context [?a <=? ?b] => destruct (Z.leb_spec a b); try lia end; reflexivity.
  - unfold ends_nonspace. assert (X : forall r, In r rs -> r <> c_space) by (intros r I; rewrite Forall_forall in F; specialize (F r I); unfold c_space; lia).
    destruct rs as [|r rs]; [congruence|]. apply X. apply (@exists_last _ (r :: rs)) in N as (l & x & E). rewrite E, last_last. apply in_or_app. right. now left.
Qed.
Lemma amount_number : forall U n q, amount_text n q -> number_text U n.
Proof.
  intros U n q A. destruct (amount_chars n q A) as (F & N & H). split.
  - apply plain_phrase; [exact N|]. eapply Forall_impl; [|exact F]. unfold amount_char, digit. lia.
  - destruct H as [H|[H|H]]; auto. left. unfold isNumber, between, digit in *. destruct (Z.ltb_spec (hd 0 n) 0); [lia|]. destruct (Z.leb_spec (hd 0 n) 255); [|lia].
    destruct (Z.leb_spec 48 (hd 0 n)); [|lia]. destruct (Z.leb_spec (hd 0 n) 57); [|lia]. reflexivity.
Qed.
Lemma date_chars : forall w d, header_date w d -> Forall (fun r => 43 <= r <= 57) w /\ (5 <= length w)%nat /\ digit (hd 0 w).
Proof.
  intros w d (_ & sep & S & T). destruct T as [y m dd (L1 & F1 & _) (L2 & F2 & _) (L3 & F3 & _)].
  assert (D : forall w, Forall digit w -> Forall (fun r => 43 <= r <= 57) w) by (intros x F; eapply Forall_impl; [|exact F]; unfold digit; lia).
  assert (43 <= sep <= 57) by (unfold separator in S; lia).
  split; [|split].
  - rewrite !Forall_app. repeat split; auto.
  - rewrite !app_length. cbn. lia.
  - destruct y as [|x y]; [discriminate|]. inversion_clear F1. assumption.
Qed.
Lemma date_word : forall U w d, header_date w d -> date_text U w /\ parseDate w = POk d.
Proof.
  intros U w d H. destruct (date_chars w d H) as (F & L & D). split.
  - split; [destruct w; [cbn in L; lia|discriminate]|]. split.
    + unfold isNumber, between, digit in *. destruct (Z.ltb_spec (hd 0 w) 0); [lia|]. destruct (Z.leb_spec (hd 0 w) 255); [|lia].
      destruct (Z.leb_spec 48 (hd 0 w)); [|lia]. destruct (Z.leb_spec (hd 0 w) 57); [|lia]. reflexivity.
    + eapply Forall_impl; [|exact F]. cbn. intros. lia.
  - apply C07_header_dates; [|exact L|exact H]. eapply Forall_impl; [|exact F]. cbn. intros r B. apply ascii_valid. unfold ascii. lia.
Qed.

Lemma reworded_lexes : forall U rs rs', reworded U rs rs' -> rs <> [] /\ rs' <> [] /\ forall hint, items_same (lex_runes U hint rs) (lex_runes U hint rs').
Proof.
  intros U rs rs' R. assert (Mg : forall m t, margin m -> m ++ t <> []) by (intros m t (w & _ & [->| ->]); discriminate).
  destruct R as [rs rs' R|m m' a g g' c s s' n n' q t t' M M' A G G' C (W & W' & S) N N' Q T T'|d d' day s s' k k' p t t' D D' W W' P K T].
  - destruct (relaid_nonempty _ _ _ R) as [N N']. split; [exact N|split; [exact N'|]]. intro hint. rewrite (relaid_lexes U rs rs' R hint). apply items_refl.
  - split; [now apply Mg|split; [now apply Mg|]]. intro hint. rewrite !read_posting by (assumption || eapply amount_number; eassumption).
    assert (is_nil s = is_nil s') as ->.
    { destruct s, s'; try reflexivity; exfalso; destruct S as [S1 S2]; [now specialize (S1 eq_refl)|now specialize (S2 eq_refl)]. }
    split; [|reflexivity]. cbn [fst]. apply Forall2_cons; [split; [reflexivity|now left]|]. apply Forall2_cons; [split; [reflexivity|now left]|]. apply Forall2_cons; [|constructor].
    split; [reflexivity|]. right. right. split; [reflexivity|]. exists q. split; now apply C04_amounts_exact_partial.
  - destruct (date_word U d day D) as [DT DP]. destruct (date_word U d' day D') as [DT' DP'].
    split; [destruct DT as (N & _); destruct d; [congruence|discriminate]|split; [destruct DT' as (N & _); destruct d'; [congruence|discriminate]|]].
    intro hint. rewrite (lex_date U hint d _ DT), (lex_date U hint d' _ DT'). rewrite (read_header U d s k k' p DT W P K).
    assert (K' : marks p k' k) by (inversion K; subst; constructor; auto). rewrite (read_header U d' s' k' k p DT' W' P K').
    destruct (read_noted p t t' P T) as (items & H & H'). destruct (to_tab [] (p ++ t)) as [py r4]. destruct (to_tab [] (p ++ t')) as [py' r4'].
    destruct (H _ _ eq_refl) as [-> ->]. destruct (H' _ _ eq_refl) as [-> ->]. split; [|reflexivity]. cbn [fst].
    apply Forall2_app; [apply Forall2_cons; [split; [reflexivity|]; right; left; split; [reflexivity|]; exists day; split; assumption|constructor]|].
    assert (X : forall l, Forall2 item_same l l) by (induction l; constructor; [split; auto|assumption]).
    inversion K; subst; apply X.
Qed.
Lemma reworded_lines : forall U a b, reworded_text U a b -> Forall2 (lexed_alike U) (file_lines a) (file_lines b).
Proof. intro U. apply alike_lines. exact (reworded_lexes U). Qed.

Theorem C88_spelling : forall S U fs fs' th ph depth hint f f' (s : S),
  files_related (reworded_text U) fs fs' -> f_bad f = f_bad f' -> (f_bytes f = f_bytes f' \/ reworded_text U (f_bytes f) (f_bytes f')) ->
  parse U fs th ph depth hint f s = parse U fs' th ph depth hint f' s.
Proof. intros S U fs fs' th ph depth hint f f' s HF B R. now apply (parse_alike U th ph (reworded_text U) (reworded_lines U)). Qed.

Theorem C88_program : forall E L help_text library fs', files_related (reworded_text (e_unicode E)) (e_fs E) fs' -> forall argv,
  gledger E L help_text library argv = gledger (with_files E fs' (e_depth E)) L help_text library argv.
Proof. intros E L help_text library fs' F. now apply (program_alike E L help_text library fs' _ (reworded_lines (e_unicode E))). Qed.

Definition long_hand : str := lit "2024/01/02 Corner Shop
    Assets:Cash      $-002.00
    Food
".
Definition short_hand : str := lit "2024-01-02 Corner Shop
  Assets:Cash  $-2 ; gone
  Food
".
Example C88_example : reworded_text U0 long_hand short_hand /\ ~ relaid U0 (lit "    Assets:Cash      $-002.00") (lit "  Assets:Cash  $-2 ; gone").
Proof.
  split.
  - unfold reworded_text, line_by_line.
    let a := eval vm_compute in (split 10 long_hand) in change (split 10 long_hand) with a.
    let a := eval vm_compute in (split 10 short_hand) in change (split 10 short_hand) with a.
    repeat (apply Forall2_cons).
    + right. split; [apply one_line_b; reflexivity|split; [apply one_line_b; reflexivity|]]. vm_compute decode.
      apply (RewordedDate U0 (lit "2024/01/02") (lit "2024-01-02") (Date 2024 1 2) [] [] [] [] (lit "Corner Shop") [] []); try (here; fail).
      * split; [here|]. exists 47. split; [right; here|]. apply (YMD 47 (Date 2024 1 2) (lit "2024") (lit "01") (lit "02")); here.
      * split; [here|]. exists 45. split; [here|]. apply (YMD 45 (Date 2024 1 2) (lit "2024") (lit "01") (lit "02")); here.
    + right. split; [apply one_line_b; reflexivity|split; [apply one_line_b; reflexivity|]]. vm_compute decode.
      apply (RewordedAmount U0 (lit "    ") (lit "  ") (lit "Assets:Cash") (lit "      ") (lit "  ") (lit "$") [] [] (lit "-002.00") (lit "-2") (-200) [] (lit " ; gone")); try (here; fail); try (blank; fail).
      * apply (CentsAmount [45] (-1) (lit "002") (lit "00") 0); here.
      * apply (WholeAmount [45] (-1) (lit "2")); here.
      * right. right. left. exists 59, (lit " gone"). split; [left; now left|now right].
    + right. split; [apply one_line_b; reflexivity|split; [apply one_line_b; reflexivity|]]. vm_compute decode. apply RewordedLayout.
      apply (RelaidElided U0 (lit "    ") (lit "  ") (lit "Food") [] []); try (here; fail); blank.
    + now left.
    + constructor.
  - intro R. apply relaid_lexes with (hint := []) in R. vm_compute in R. discriminate R.
Qed.
