(** * Lines written out are lexed to what was written *)
From Verif Require Import Base BaseFacts Utf8 Utf8Facts Unicode GoTime Strconv Journal Lexer LexSpec
  LexerFacts LexText Parser FlatSpec Spec TextSpec JournalText ReadFacts.

Section Write.
Variable U : unicode.

Definition state_items (mark : Z) : list (itemType * list Z) :=
  if mark =? c_space then [] else [(stateItem, [mark])].

Lemma trimSpaceStart_gap : forall k r rs, r <> c_space -> trimSpaceStart (repeat c_space k ++ r :: rs) = r :: rs.
Proof.
  intros k r rs H. unfold trimSpaceStart.
  assert (forall i, first_nonspace (repeat c_space k ++ r :: rs) i = Some (k + i)%nat) as K.
  { induction k as [|k IH]; intro i; cbn [repeat app first_nonspace].
    - apply Z.eqb_neq in H. now rewrite H.
    - rewrite Z.eqb_refl. cbn [negb]. rewrite IH. f_equal. lia. }
  rewrite K, Nat.add_0_r.
  assert (skipn k (repeat c_space k ++ r :: rs) = r :: rs) as E.
  { rewrite <- (repeat_length c_space k) at 1. now rewrite skipn_app, skipn_all, Nat.sub_diag. }
  destruct (repeat c_space k ++ r :: rs) eqn:D; [destruct k; discriminate|]. exact E.
Qed.

Lemma remark_trim : forall k n, remark n -> trimSpaceStart (repeat c_space k ++ n) = n.
Proof. intros k [|r n] [N H]; [congruence|]. now apply trimSpaceStart_gap. Qed.

Definition note_runes (k : nat) (c : Z) (m : nat) (n : list Z) : list Z :=
  match n with [] => [] | _ => repeat c_space (S (S k)) ++ c :: repeat c_space m ++ n end.
Definition note_items (n : list Z) : list (itemType * list Z) :=
  match n with [] => [] | _ => [(transactionHeaderCommentItem, n)] end.
Definition state_runes (mark : Z) (j : nat) : list Z :=
  if mark =? c_space then [] else mark :: repeat c_space j.

Lemma drop_space_repeat : forall k rs, drop_space (repeat c_space k ++ rs) = drop_space rs.
Proof. induction k; intro rs; [reflexivity|]. cbn [repeat app]. rewrite drop_space_space. apply IHk. Qed.

Lemma lex_header_written : forall hint w i mark j payee k c m note,
  date_word w (c_space :: nil) -> w <> [] -> mark_ok mark payee -> comment_sign c ->
  (payee = [] /\ note = []) \/ (phrase payee /\ (note = [] \/ remark note)) ->
  lex_runes U hint (w ++ repeat c_space (S i) ++ state_runes mark j ++ payee ++ note_runes k c m note) =
    ((dateItem, w) :: state_items mark ++ (payeeItem, payee) :: note_items note, None).
Proof.
  intros hint w i mark j payee k c m note (D & F & _) N M CS P.
  rewrite lex_digit by assumption. unfold header_line.
  rewrite until_space_clean by (try assumption; right; reflexivity).
  rewrite drop_space_repeat.
  set (nr := note_runes k c m note).
  assert (to_tab [] (payee ++ nr) = (payee, match note with [] => [] | _ => repeat c_space (S k) ++ c :: repeat c_space m ++ note end)) as TT.
  { destruct P as [[-> Hn]|[(N' & UB & T1 & T2) [Hn|R]]]; unfold nr.
    - subst note. reflexivity.
    - subst note. cbn [note_runes]. rewrite app_nil_r, to_tab_clean by assumption. cbn [app]. now rewrite trimSpaceEnd_id.
    - destruct note as [|n note]; [destruct R; congruence|]. cbn [note_runes repeat app].
      rewrite to_tab_gap by (try assumption; now left). reflexivity. }
  assert (match trimSpaceStart (match note with [] => [] | _ => repeat c_space (S k) ++ c :: repeat c_space m ++ note end) with
          | [] => [] | _ :: n => [(transactionHeaderCommentItem, trimSpaceStart n)] end = note_items note) as TN.
  { destruct note as [|n note]; [reflexivity|].
    assert (remark (n :: note)) as R by (destruct P as [[_ X]|[_ [X|X]]]; [discriminate|discriminate|exact X]).
    rewrite (trimSpaceStart_gap (S k) c) by (destruct CS as [->| ->]; discriminate). now rewrite remark_trim. }
  assert (drop_space (payee ++ nr) = payee ++ nr) as DP.
  { destruct P as [[-> Hn]|[(N' & UB & T1 & T2) _]]; [unfold nr; subst note; reflexivity|].
    destruct payee as [|r payee]; [congruence|]. cbn in T1. cbn [app]. now apply drop_space_id. }
  unfold state_runes, state_items.
  destruct M as [->|[->|(-> & H1 & H2)]].
  - change (c_bang =? c_space) with false. cbn match. change ((c_bang :: repeat c_space j) ++ payee ++ nr) with (c_bang :: repeat c_space j ++ payee ++ nr).
    rewrite drop_space_id by reflexivity. change ((c_bang =? c_bang) || (c_bang =? c_star)) with true. cbn match.
    rewrite drop_space_repeat, DP, TT, TN. reflexivity.
  - change (c_star =? c_space) with false. cbn match. change ((c_star :: repeat c_space j) ++ payee ++ nr) with (c_star :: repeat c_space j ++ payee ++ nr).
    rewrite drop_space_id by reflexivity. change ((c_star =? c_bang) || (c_star =? c_star)) with true. cbn match.
    rewrite drop_space_repeat, DP, TT, TN. reflexivity.
  - change (c_space =? c_space) with true. cbn match. cbn [app]. rewrite DP.
    assert (match payee ++ nr with
            | [] => ([], [])
            | r :: rs' => if (r =? c_bang) || (r =? c_star) then ([(stateItem, [r])], drop_space rs')
                          else ([], payee ++ nr) end = (@nil (itemType * list Z), payee ++ nr)) as ->.
    { destruct P as [[-> Hn]|[(N' & _) _]]; [unfold nr; subst note; reflexivity|]. destruct payee as [|r payee]; [congruence|].
      cbn [app]. cbn in H1, H2. apply Z.eqb_neq in H1, H2. now rewrite H1, H2. }
    rewrite TT. cbn [app]. now rewrite TN.
Qed.

(** Any header line, by what follows the payee. *)
Definition note_of (rs : list Z) : list (itemType * list Z) :=
  match trimSpaceStart rs with [] => [] | _ :: note => [(transactionHeaderCommentItem, trimSpaceStart note)] end.

Lemma lex_headed : forall hint w i mark j payee t rs4,
  date_word w (c_space :: nil) -> w <> [] -> mark_ok mark payee ->
  (phrase payee \/ exists c t', payee = [] /\ comment_sign c /\ t = c :: t') -> to_tab [] (payee ++ t) = (payee, rs4) ->
  lex_runes U hint (w ++ repeat c_space (S i) ++ state_runes mark j ++ payee ++ t) =
    ((dateItem, w) :: state_items mark ++ (payeeItem, payee) :: note_of rs4, None).
Proof.
  intros hint w i mark j payee t rs4 (D & F & _) N M P TT.
  rewrite lex_digit by assumption. unfold header_line.
  rewrite until_space_clean by (try assumption; right; reflexivity).
  rewrite drop_space_repeat. fold (note_of rs4).
  assert (drop_space (payee ++ t) = payee ++ t) as DP.
  { destruct P as [(N' & UB & T1 & T2)|(c & t' & -> & CS & ->)].
    - destruct payee as [|r payee]; [congruence|]. cbn in T1. cbn [app]. now apply drop_space_id.
    - cbn [app]. apply drop_space_id. now destruct CS as [->| ->]. }
  unfold state_runes, state_items.
  destruct M as [->|[->|(-> & H1 & H2)]].
  - change (c_bang =? c_space) with false. cbn match. change ((c_bang :: repeat c_space j) ++ payee ++ t) with (c_bang :: repeat c_space j ++ payee ++ t).
    rewrite drop_space_id by reflexivity. change ((c_bang =? c_bang) || (c_bang =? c_star)) with true. cbn match.
    rewrite drop_space_repeat, DP, TT. reflexivity.
  - change (c_star =? c_space) with false. cbn match. change ((c_star :: repeat c_space j) ++ payee ++ t) with (c_star :: repeat c_space j ++ payee ++ t).
    rewrite drop_space_id by reflexivity. change ((c_star =? c_bang) || (c_star =? c_star)) with true. cbn match.
    rewrite drop_space_repeat, DP, TT. reflexivity.
  - change (c_space =? c_space) with true. cbn match. cbn [app]. rewrite DP.
    assert (match payee ++ t with
            | [] => ([], [])
            | r :: rs' => if (r =? c_bang) || (r =? c_star) then ([(stateItem, [r])], drop_space rs')
                          else ([], payee ++ t) end = (@nil (itemType * list Z), payee ++ t)) as ->.
    { destruct P as [(N' & _)|(c & t' & -> & CS & ->)]; [|now destruct CS as [->| ->]]. destruct payee as [|r payee]; [congruence|].
      cbn [app]. cbn in H1, H2. apply Z.eqb_neq in H1, H2. now rewrite H1, H2. }
    rewrite TT. reflexivity.
Qed.

Lemma trimSpaceStart_blank : forall n, blank n -> trimSpaceStart n = n.
Proof.
  intros n B. unfold trimSpaceStart. assert (forall i, first_nonspace n i = None) as -> by (induction B as [|x n -> _ IH]; intro; [reflexivity|apply IH]).
  now destruct n.
Qed.

Lemma lex_blank_remark : forall hint k c n, comment_sign c -> blank n ->
  lex_runes U hint (repeat c_space (S (S k)) ++ c :: n) = ([(commentItem, n)], None).
Proof.
  intros hint k c n CS B. change (lex_runes U hint (repeat c_space (S (S k)) ++ c :: n)) with (posting_line U (repeat c_space (S k) ++ c :: n)).
  unfold posting_line. rewrite drop_space_repeat.
  rewrite drop_space_id by (destruct CS as [->| ->]; reflexivity).
  replace (isCommentIndicator c) with true by (destruct CS as [->| ->]; reflexivity).
  now rewrite trimSpaceStart_blank.
Qed.

Lemma lex_indented : forall hint k rs, lex_runes U hint (repeat c_space (S (S k)) ++ rs) = posting_line U (repeat c_space (S k) ++ rs).
Proof. reflexivity. Qed.

Lemma lex_remark_written : forall hint k c m n, comment_sign c -> remark n ->
  lex_runes U hint (repeat c_space (S (S k)) ++ c :: repeat c_space m ++ n) = ([(commentItem, n)], None).
Proof.
  intros hint k c m n CS R. rewrite lex_indented. unfold posting_line. rewrite drop_space_repeat.
  rewrite drop_space_id by (destruct CS as [->| ->]; reflexivity).
  replace (isCommentIndicator c) with true by (destruct CS as [->| ->]; reflexivity).
  now rewrite remark_trim.
Qed.

Lemma letter_no_comment : forall r, isLetter U r = true -> isCommentIndicator r = false.
Proof.
  intros r H. unfold isCommentIndicator, c_semi, c_hash. apply orb_false_iff. split; apply Z.eqb_neq; intros ->; discriminate.
Qed.

(** An amount: starts with a digit or a sign, no space, no comment sign. *)
Definition amount_runes (w : list Z) : Prop :=
  (digit (hd 0 w) \/ hd 0 w = c_minus \/ hd 0 w = c_plus) /\
  Forall (fun r => breaks r = false /\ r <> c_space) w.

Lemma no_space_single : forall w, Forall (fun r => breaks r = false /\ r <> c_space) w -> unbroken w /\ ends_nonspace w.
Proof.
  intros w F. split; [split|].
  - eapply Forall_impl; [|exact F]. now intros a [? _].
  - induction F as [|r w [_ H] F IH]; [reflexivity|]. cbn [single_spaced]. apply Z.eqb_neq in H. now rewrite H, IH.
  - unfold ends_nonspace. destruct w as [|r w]; [unfold c_space; cbn; discriminate|].
    assert (In (last (r :: w) 0) (r :: w)) as I.
    { destruct (exists_last (l := r :: w)) as [l [x E]]; [discriminate|]. rewrite E, last_last. apply in_or_app. right. now left. }
    rewrite Forall_forall in F. now apply F in I as [_ I].
Qed.

Lemma lex_posting_written : forall hint k a m c w, account_text U a -> commodity_text U c -> amount_runes w ->
  lex_runes U hint (repeat c_space (S (S k)) ++ a ++ repeat c_space (S (S m)) ++ c ++ w) =
    ([(accountItem, a); (commodityItem, c); (amountItem, w)], None).
Proof.
  intros hint k a m c w (NA & LA & (SA & EA) & TA & DA) (c0 & CC & SC & HC) (HW & FW).
  rewrite lex_indented. unfold posting_line. rewrite drop_space_repeat.
  destruct a as [|r a]; [congruence|]. cbn [hd] in *. cbn [app]. rewrite drop_space_id by assumption.
  rewrite letter_no_comment, LA by assumption.
  change (r :: a ++ repeat c_space (S (S m)) ++ c ++ w) with ((r :: a) ++ repeat c_space (S (S m)) ++ c ++ w).
  rewrite account_name_clean; try assumption; [|right; eexists; reflexivity].
  cbv iota beta. rewrite drop_space_repeat. cbn [repeat app]. cbv iota.
  assert (w <> []) as NW. { intros ->. cbn in HW. unfold digit, c_minus, c_plus in HW. lia. }
  destruct w as [|x w]; [congruence|]. cbn [hd] in HW.
  assert (isSpace x = false /\ isNumber U x || (x =? c_minus) || (x =? c_plus) || (x =? c_space) || (x =? c_tab) = true) as [SX NX].
  { destruct HW as [D|[->| ->]]; [|split; [reflexivity|]; now rewrite !orb_true_r..].
    split; [now apply digit_no_space|]. now rewrite digit_number. }
  destruct (no_space_single _ FW) as [UB EN].
  assert (to_tab [] (x :: w) = (x :: w, [])) as TT.
  { rewrite to_tab_clean by assumption. cbn [app]. now rewrite trimSpaceEnd_id. }
  destruct HC as [->|[NC ->]].
  - assert (drop_space (c0 ++ x :: w) = c0 ++ x :: w) as ->.
    { destruct c0 as [|y c0]; cbn [app]; now apply drop_space_id. }
    rewrite commodity_name_clean by (try assumption; now right).
    assert (space_width (x :: w) = 0) as ->. { cbn [space_width]. now rewrite SX. }
    cbn [Z.ltb Z.compare]. rewrite drop_space_id by assumption. now rewrite TT.
  - destruct c0 as [|y c0]; [congruence|].
    rewrite <- app_assoc. cbn [app].
    assert (drop_space (y :: c0 ++ c_space :: x :: w) = (y :: c0) ++ c_space :: x :: w) as -> by (now apply drop_space_id).
    rewrite commodity_name_clean by (try assumption; right; cbn [hd]; now rewrite Z.eqb_refl, !orb_true_r).
    assert (space_width (c_space :: x :: w) = 1) as ->. { cbn. now rewrite SX. }
    rewrite drop_space_space, drop_space_id, TT by assumption. reflexivity.
Qed.

Lemma lex_elided_written : forall hint k a, account_text U a ->
  lex_runes U hint (repeat c_space (S (S k)) ++ a) = ([(accountItem, a)], None).
Proof.
  intros hint k a (NA & LA & (SA & EA) & TA & DA).
  rewrite lex_indented. unfold posting_line. rewrite drop_space_repeat.
  destruct a as [|r a]; [congruence|]. cbn [hd] in *. rewrite drop_space_id by assumption.
  rewrite letter_no_comment, LA by assumption.
  pose proof (account_name_clean (r :: a) [] false []) as X. rewrite app_nil_r in X.
  rewrite X; try assumption; [reflexivity|now left].
Qed.

(** include NAME, ~ PERIOD *)
Lemma lex_include_written : forall hint ws name, Forall (fun r => isSpace r = true) ws -> phrase name ->
  lex_runes U hint (lit "include" ++ c_space :: ws ++ name) = ([(includeItem, decode (dir_of hint) ++ name)], None).
Proof.
  intros hint ws name F (N & UB & T1 & T2).
  assert (lex_runes U hint (lit "include" ++ c_space :: ws ++ name) = include_line hint (lit "include" ++ c_space :: ws ++ name)) as -> by reflexivity.
  unfold include_line. rewrite until_space_clean; [| repeat constructor | right; reflexivity].
  replace (negb (str_eqb (lit "include") (lit "include"))) with false by reflexivity.
  assert (0 <= space_width (ws ++ name)) as W by apply space_width_nonneg.
  assert (space_width (c_space :: ws ++ name) =? 0 = false) as ->.
  { apply Z.eqb_neq. cbn [space_width]. replace (isSpace c_space) with true by reflexivity.
    replace (c_space =? c_tab) with false by reflexivity. rewrite Z.eqb_refl. lia. }
  rewrite drop_space_space.
  assert (drop_space (ws ++ name) = name) as ->.
  { clear W. induction F as [|r ws S F IH]; cbn [app].
    - destruct name as [|r name]; [congruence|]. now apply drop_space_id.
    - cbn [drop_space]. now rewrite S. }
  rewrite to_tab_clean by assumption. cbn [app]. rewrite trimSpaceEnd_id by assumption. cbn [fst].
  destruct name; [congruence|reflexivity].
Qed.
End Write.
