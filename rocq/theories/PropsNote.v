(** * C54: what becomes of the note of a header, however it is set off *)
From Verif Require Import Base BaseFacts Utf8 Utf8Facts Unicode GoTime Strconv Journal Lexer LexSpec
  LexerFacts LexText LexedFacts Parser ParserFacts FlatSpec FlatFacts Spec JournalFacts IncludeFacts
  TextSpec DateFacts AmountFacts BuilderFacts LineFacts ReadFacts WriteFacts BodyFacts InputFacts WholeFacts Sample PropsParser PropsInput PropsPanic PropsLayout JournalText.

(** A header line up to the payee, with anything after it. *)
Definition headed (sep : Z) (w : str) (d : date) (s : txn_state) (i j : nat) (payee rest line : str) : Prop :=
  separator sep /\ ymd_text sep d w /\ real_date d /\ spelt (payee_text s) payee /\
  line = w ++ spaces (1 + i) ++ mark_text s j ++ payee ++ rest.

(** What is left of a note whose first character is lost: the spaces that come
    next are lost with it, unless there is nothing else. *)
Inductive beheaded : str -> str -> Prop :=
| LostFirst : forall x k note, valid_rune x = true -> spelt (fun n => hd 0 n <> 32) note -> note <> [] ->
    beheaded (encode [x] ++ spaces k ++ note) note
| LostAll : forall x k, valid_rune x = true -> beheaded (encode [x] ++ spaces k) (spaces k).

(** The reader, at the line, in any state in which what is open can be closed. *)
Definition stores (U : unicode) (line : str) (d : date) (s : txn_state) (payee note : str) : Prop :=
  forall b, snd (close_open b) = SOk ->
  exists b' es t, flat_line U line b = (b', es, SOk) /\
    b_txn b' = Some t /\ t_date t = d /\ t_state t = s /\ t_payee t = payee /\ t_headernote t = note.

Lemma headed_stores : forall U sep w d s i j payee rr line rs4 note,
  headed sep w d s i j payee (encode rr) line -> Forall (fun r => valid_rune r = true) rr ->
  (forall rp, phrase rp -> to_tab [] (rp ++ rr) = (rp, rs4)) ->
  (note_of rs4 = [] /\ note = [] \/ exists n, note_of rs4 = [(transactionHeaderCommentItem, n)] /\ note = encode n) ->
  stores U line d s payee note.
Proof.
  intros U sep w d s i j payee rr line rs4 note (S & T & R & (rp & V & [P1 P2] & ->) & ->) VR TT NN b CL.
  destruct (ymd_word sep d w S T) as (A & N & DW).
  assert (parseDate w = POk d) as PD.
  { apply parseDate_spec; [now apply ascii_valids| |eauto].
    destruct T as [y m dd (L1 & _) (L2 & _) (L3 & _)]. rewrite !app_length. cbn. lia. }
  assert (mark_text s j = state_runes (mark_of s) j) as MT by now destruct s.
  assert (Forall ascii (mark_text s j)) as MA.
  { destruct s; cbn [mark_text]; constructor; try apply spaces_ascii; unfold ascii; cbn; lia. }
  unfold flat_line. rewrite <- encode_app.
  rewrite encode_ascii_app by apply MA. rewrite encode_ascii_app by apply spaces_ascii. rewrite encode_ascii_app by assumption.
  rewrite lex_encoded.
  2:{ repeat (apply Forall_app; split); try assumption; try apply spaces_valid; apply ascii_valids; auto. }
  rewrite MT. unfold JournalText.spaces. change (1 + i)%nat with (Datatypes.S i).
  change 32 with c_space. rewrite (lex_headed U [] w i (mark_of s) j rp rr rs4 DW N P2 (or_introl P1) (TT rp P1)).
  pose proof (header_result b w (state_items (mark_of s)) rp (note_of rs4)) as X. cbn zeta in X.
  destruct (close_open b) as [[b1 es1] r1] eqn:CO. cbn in CL. subst r1. rewrite PD in X.
  destruct X as (t & X & ET).
  - unfold state_items. destruct s; cbn; [now left|right; eexists; split; [|reflexivity]; now left|right; eexists; split; [|reflexivity]; now right].
  - destruct NN as [[-> _]|(n & -> & _)]; [now left|right; eexists; reflexivity].
  - rewrite X. do 3 eexists. split; [reflexivity|]. cbn [b_txn]. split; [reflexivity|]. rewrite ET.
    destruct NN as [[-> ->]|(n & -> & ->)]; destruct s; cbn; auto.
Qed.

Lemma trimSpaceStart_spaces : forall k, trimSpaceStart (repeat c_space k) = repeat c_space k.
Proof.
  intro k. unfold trimSpaceStart. assert (forall n, first_nonspace (repeat c_space k) n = None) as -> by (induction k; intro; [reflexivity|apply IHk]).
  now destruct k.
Qed.
(** After at most one space the comment sign itself ends the payee, and the first
    character of the note goes the way the sign should. *)
Theorem C54_close_note_partial : forall U sep w d s i j payee e c m note kept line,
  headed sep w d s i j payee (spaces e ++ [c] ++ spaces m ++ note) line ->
  (e <= 1)%nat -> comment_sign c -> spelt remark note -> beheaded note kept ->
  stores U line d s payee kept.
Proof.
  intros U sep w d s i j payee e c m note kept line H E CS (rn & VN & RN & ->) B.
  rewrite (encode_ascii_app (spaces m)) in H by apply spaces_ascii. rewrite (encode_ascii_app [c]) in H by now apply sign_ascii.
  rewrite (encode_ascii_app (spaces e)) in H by apply spaces_ascii.
  apply (headed_stores _ _ _ _ _ _ _ _ _ _ (spaces m ++ rn) _ H).
  - repeat (apply Forall_app; split); try apply spaces_valid; [|assumption]. apply ascii_valids. now apply sign_ascii.
  - intros rp P. apply to_tab_sign; auto using stops.
  - right. unfold note_of. change (spaces m) with (repeat c_space m). rewrite remark_trim by exact RN.
    destruct rn as [|r rn]; [destruct RN; congruence|]. eexists. split; [reflexivity|].
    inversion_clear VN as [|? ? Vr Vn].
    remember (encode (r :: rn)) as nt eqn:Q. destruct B as [x k n Vx (rk & Vk & Hk & ->) Nn|x k Vx].
    + rewrite (encode_ascii_app (spaces k)) in Q by apply spaces_ascii. rewrite <- encode_app in Q.
      apply (f_equal decode) in Q. rewrite !decode_encode in Q.
      2,3: repeat (constructor || apply Forall_app || split); auto; try apply spaces_valid.
      injection Q as -> <-. change (spaces k) with (repeat c_space k). f_equal. destruct rk as [|y rk]; [now cbn in Nn|]. symmetry. now apply trimSpaceStart_gap.
    + rewrite <- (encode_ascii (spaces k)) in Q by apply spaces_ascii. rewrite <- encode_app in Q.
      apply (f_equal decode) in Q. rewrite !decode_encode in Q.
      2,3: repeat (constructor || apply Forall_app || split); auto; try apply spaces_valid.
      injection Q as -> <-. change (spaces k) with (repeat c_space k). rewrite trimSpaceStart_spaces. symmetry. apply encode_ascii. apply spaces_ascii.
Qed.

(** After a tab, as after two spaces, it is kept. *)
Theorem C54_tab_note_partial : forall U sep w d s i j payee e k c m note line,
  headed sep w d s i j payee (spaces e ++ [9] ++ spaces k ++ [c] ++ spaces m ++ note) line ->
  (e <= 1)%nat -> comment_sign c -> spelt remark note ->
  stores U line d s payee note.
Proof.
  intros U sep w d s i j payee e k c m note line H E CS (rn & VN & RN & ->).
  rewrite (encode_ascii_app (spaces m)) in H by apply spaces_ascii. rewrite (encode_ascii_app [c]) in H by now apply sign_ascii.
  rewrite (encode_ascii_app (spaces k)) in H by apply spaces_ascii. rewrite (encode_ascii_app [9]) in H by (repeat constructor; unfold ascii; lia).
  rewrite (encode_ascii_app (spaces e)) in H by apply spaces_ascii.
  apply (headed_stores _ _ _ _ _ _ _ _ _ _ (spaces k ++ c :: spaces m ++ rn) _ H).
  - repeat (apply Forall_app; split); try apply spaces_valid; try assumption; apply ascii_valids; [repeat constructor; unfold ascii; lia|now apply sign_ascii].
  - intros rp P. now apply to_tab_sign.
  - right. unfold note_of. change (spaces k) with (repeat c_space k). rewrite trimSpaceStart_gap by (destruct CS as [->| ->]; discriminate).
    change (spaces m) with (repeat c_space m). rewrite remark_trim by exact RN. eexists. split; reflexivity.
Qed.

(** A note that is cut off after the sign is no note, and no first character is lost. *)
Theorem C54_no_note_partial : forall U sep w d s i j payee e c line,
  headed sep w d s i j payee (spaces e ++ [c]) line -> (e <= 1)%nat -> comment_sign c -> stores U line d s payee [].
Proof.
  intros U sep w d s i j payee e c line H E CS.
  rewrite <- (encode_ascii (spaces e ++ [c])) in H by (apply Forall_app; split; [apply spaces_ascii|now apply sign_ascii]).
  apply (headed_stores _ _ _ _ _ _ _ _ _ _ [] _ H).
  - apply ascii_valids. apply Forall_app; split; [apply spaces_ascii|now apply sign_ascii].
  - intros rp P. apply to_tab_sign; auto using stops.
  - left. now split.
Qed.

(** Every note loses its first character in one of the two ways. *)
Lemma all_beheaded : forall note, spelt remark note -> exists kept, beheaded note kept.
Proof.
  intros note (rn & V & (N & H) & ->). destruct rn as [|x rn]; [congruence|]. inversion_clear V as [|? ? Vx Vn].
  assert (exists k rest, rn = spaces k ++ rest /\ hd 0 rest <> 32) as (k & rest & -> & R).
  { clear. induction rn as [|y rn (k & rest & -> & R)]; [exists 0%nat, []; split; [reflexivity|discriminate]|].
    destruct (Z.eq_dec y 32) as [->|Y]; [exists (S k), rest; now split|]. exists 0%nat, (y :: spaces k ++ rest). now split. }
  apply Forall_app in Vn as [_ Vr].
  change (encode (x :: spaces k ++ rest)) with (encode ([x] ++ spaces k ++ rest)). rewrite !encode_app, (encode_ascii (spaces k)) by apply spaces_ascii.
  destruct rest as [|y rest].
  - exists (spaces k). change (encode []) with (@nil Z). rewrite app_nil_r. now constructor.
  - exists (encode (y :: rest)). constructor; [exact Vx|exists (y :: rest); now repeat split|]. intro Q.
    apply (f_equal decode) in Q. rewrite decode_encode in Q by exact Vr. discriminate.
Qed.

Lemma headed_cafe : forall rest, headed 47 (lit "2020/02/29") (Date 2020 2 29) ClearedState 0 1 (encode cafe) rest
  (lit "2020/02/29 * " ++ encode cafe ++ rest).
Proof.
  intro rest. split; [right; now right|]. split; [|split; [|split; [|reflexivity]]].
  - apply (YMD 47 (Date 2020 2 29) (lit "2020") (lit "02") (lit "29")); (split; [reflexivity|]); split; try reflexivity;
      repeat constructor; cbn; lia.
  - right. right. right. cbn. repeat split. { exists 505. reflexivity. } left. intros [x X]. lia.
  - exists cafe. split; [valid_runes|]. split; [|reflexivity]. split; [|right; now left].
    repeat split; try discriminate; try valid_runes.
Qed.
Lemma text_remark : forall n, n <> [] -> hd 0 n <> 32 -> Forall ascii n -> spelt remark n.
Proof. intros n N H A. exists n. split; [now apply ascii_valids|]. split; [now split|]. symmetry. now apply encode_ascii. Qed.

(** The note of the café's header, one space, none, and a tab before its sign. *)
Example C54_close_example :
  stores U0 (lit "2020/02/29 * " ++ encode cafe ++ lit " ; with Zoe") (Date 2020 2 29) ClearedState (encode cafe) (lit "ith Zoe") /\
  stores U0 (lit "2020/02/29 * " ++ encode cafe ++ lit ";- x") (Date 2020 2 29) ClearedState (encode cafe) (lit "x") /\
  stores U0 (lit "2020/02/29 * " ++ encode cafe ++ [9] ++ lit "; with Zoe") (Date 2020 2 29) ClearedState (encode cafe) (lit "with Zoe") /\
  stores U0 (lit "2020/02/29 * " ++ encode cafe ++ lit " ;") (Date 2020 2 29) ClearedState (encode cafe) [].
Proof.
  assert (forall n, n <> [] -> hd 0 n <> 32 -> Forall ascii n -> spelt (fun n => hd 0 n <> 32) n) as K.
  { intros n N H A. exists n. split; [now apply ascii_valids|]. split; [exact H|]. symmetry. now apply encode_ascii. }
  split; [|split; [|split]].
  - eapply (C54_close_note_partial U0) with (e := 1%nat) (c := 59) (m := 1%nat); [apply headed_cafe|lia|now left|apply text_remark; [discriminate..|]|];
      [repeat constructor; cbn; lia|].
    apply (LostFirst 119 0 (lit "ith Zoe")); [reflexivity|apply K; [discriminate..|]|discriminate]. repeat constructor; cbn; lia.
  - eapply (C54_close_note_partial U0) with (e := 0%nat) (c := 59) (m := 0%nat); [apply headed_cafe|lia|now left|apply text_remark; [discriminate..|]|];
      [repeat constructor; cbn; lia|].
    apply (LostFirst 45 1 (lit "x")); [reflexivity|apply K; [discriminate..|]|discriminate]. repeat constructor; cbn; lia.
  - apply (C54_tab_note_partial U0 47 (lit "2020/02/29") (Date 2020 2 29) ClearedState 0 1 (encode cafe) 0 0 59 1 (lit "with Zoe")); [apply headed_cafe|lia|now left|apply text_remark; [discriminate..|]].
    repeat constructor; cbn; lia.
  - apply (C54_no_note_partial U0 47 (lit "2020/02/29") (Date 2020 2 29) ClearedState 0 1 (encode cafe) 1 59); [apply headed_cafe|lia|now left].
Qed.
