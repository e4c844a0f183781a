(** * C85: the layout of lines is free *)
From Verif Require Import Base BaseFacts Utf8 Utf8Facts Unicode GoTime Strconv Journal Lexer LexSpec LexerFacts LexText LexedFacts
  Parser ParserFacts FlatSpec FlatFacts Spec JournalText JournalFacts BuilderFacts LineFacts IncludeFacts PanicFacts WriteFacts Cmd CmdSpec Unused Main Sample PropsParser PropsIgnored ProgramFacts.

(** ** Lines that say the same

    White space that does not matter: any number of spaces and tabs. *)
Definition white (w : list Z) : Prop := Forall (fun c => c = 32 \/ c = 9) w.
Definition spaces (w : list Z) : Prop := Forall (fun c => c = 32) w.

(** What an indented line begins with: a tab or two spaces, and more. *)
Definition margin (m : list Z) : Prop := exists w, white w /\ (m = 9 :: w \/ m = 32 :: 32 :: w).
(** What separates an account from its amount: a tab or two spaces, and more. *)
Definition gap (g : list Z) : Prop := exists w, white w /\ (g = 9 :: w \/ g = 32 :: 9 :: w \/ g = 32 :: 32 :: w).
(** What may follow an amount, a period or the name of a file without being looked at:
    nothing, a space, or anything after a comment sign, a tab or two spaces. *)
Definition ignored_end (t : list Z) : Prop :=
  t = [] \/ t = [32] \/ (exists c t', (comment_sign c \/ c = 9) /\ (t = c :: t' \/ t = 32 :: c :: t')) \/ (exists t', t = 32 :: 32 :: t').
(** Nothing or a space. *)
Definition bare_end (t : list Z) : Prop := t = [] \/ t = [32].
(** What separates a payee from a note: two spaces or a tab, and more spaces. *)
Definition note_gap (g : list Z) : Prop := exists w, spaces w /\ (g = 9 :: w \/ g = 32 :: 9 :: w \/ g = 32 :: 32 :: w).

Section Layout.
Variable U : unicode.
Definition account_text (a : list Z) : Prop :=
  a <> [] /\ isLetter U (hd 0 a) = true /\ isSpace (hd 0 a) = false /\ Forall (fun r => r <> 9) a /\ single_spaced a = true /\ ends_nonspace a.
Definition commodity_text (c : list Z) : Prop :=
  Forall (fun r => isNumber U r = false /\ r <> 45 /\ r <> 43 /\ isSpace r = false) c.
Definition number_text (n : list Z) : Prop := phrase n /\ (isNumber U (hd 0 n) = true \/ hd 0 n = 45 \/ hd 0 n = 43).
Definition date_text (d : list Z) : Prop := d <> [] /\ isNumber U (hd 0 d) = true /\ Forall (fun r => r <> 32) d.
Definition both_or_neither (s s' : list Z) : Prop := white s /\ white s' /\ (s = [] <-> s' = []).
(** A state mark and the space after it, before the payee. *)
Inductive marks (payee : list Z) : list Z -> list Z -> Prop :=
| MarkNone : hd 0 payee <> 33 -> hd 0 payee <> 42 -> marks payee [] []
| MarkOne : forall c w w', c = 33 \/ c = 42 -> white w -> white w' -> marks payee (c :: w) (c :: w').
(** A header note, or none. *)
Inductive noted : list Z -> list Z -> Prop :=
| NotedNot : forall e e', bare_end e -> bare_end e' -> noted e e'
| NotedIt : forall g g' c c' s s' n, note_gap g -> note_gap g' -> comment_sign c -> comment_sign c' -> spaces s -> spaces s' -> remark n ->
    noted (g ++ c :: s ++ n) (g' ++ c' :: s' ++ n).

Inductive relaid : list Z -> list Z -> Prop :=
| RelaidPosting : forall m m' a g g' c s s' n t t', margin m -> margin m' -> account_text a -> gap g -> gap g' -> commodity_text c ->
    both_or_neither s s' -> number_text n -> ignored_end t -> ignored_end t' ->
    relaid (m ++ a ++ g ++ c ++ s ++ n ++ t) (m' ++ a ++ g' ++ c ++ s' ++ n ++ t')
| RelaidElided : forall m m' a t t', margin m -> margin m' -> account_text a -> bare_end t -> bare_end t' ->
    relaid (m ++ a ++ t) (m' ++ a ++ t')
| RelaidComment : forall m m' c c' s s' n, margin m -> margin m' -> comment_sign c -> comment_sign c' -> spaces s -> spaces s' -> remark n ->
    relaid (m ++ c :: s ++ n) (m' ++ c' :: s' ++ n)
| RelaidHeader : forall d s s' k k' p t t', date_text d -> white s -> white s' -> phrase p -> marks p k k' -> noted t t' ->
    relaid (d ++ 32 :: s ++ k ++ p ++ t) (d ++ 32 :: s' ++ k' ++ p ++ t')
| RelaidPeriod : forall s s' p t t', white s -> white s' -> s <> [] -> s' <> [] -> phrase p -> ignored_end t -> ignored_end t' ->
    relaid (126 :: s ++ p ++ t) (126 :: s' ++ p ++ t')
| RelaidInclude : forall s s' p t t', white s -> white s' -> phrase p -> ignored_end t -> ignored_end t' ->
    relaid (lit "include" ++ 32 :: s ++ p ++ t) (lit "include" ++ 32 :: s' ++ p ++ t').

(** ** They are lexed alike *)
Lemma white_space : forall w, white w -> Forall (fun c => isSpace c = true) w.
Proof. intros w W. eapply Forall_impl; [|exact W]. intros c [->| ->]; reflexivity. Qed.
Lemma white_drop : forall w rs, white w -> drop_space (w ++ rs) = drop_space rs.
Proof. intros w rs W. apply drop_space_ws. now apply white_space. Qed.
Lemma first_drop : forall rs t, rs <> [] -> isSpace (hd 0 rs) = false -> drop_space (rs ++ t) = rs ++ t.
Proof. intros [|r rs] t N S; [congruence|]. cbn in *. now rewrite S. Qed.
Lemma width_nonneg : forall rs, 0 <= space_width rs.
Proof.
  induction rs as [|r l IH]; cbn [space_width]; [lia|]. destruct (isSpace r); [|lia]. destruct (r =? c_tab); [unfold TabWidth; lia|]. destruct (r =? c_space); lia.
Qed.
Lemma white_width : forall w rs, white w -> w <> [] -> 0 < space_width (w ++ rs).
Proof.
  intros [|c w] rs W N; [congruence|]. inversion_clear W as [|? ? C W']. pose proof (width_nonneg (w ++ rs)) as P.
  destruct C as [->| ->]; [change (0 < 1 + space_width (w ++ rs))|change (0 < TabWidth + space_width (w ++ rs)); unfold TabWidth]; lia.
Qed.
Lemma no_width : forall rs t, rs <> [] -> isSpace (hd 0 rs) = false -> space_width (rs ++ t) = 0.
Proof. intros [|r rs] t N S; [congruence|]. cbn in *. now rewrite S. Qed.
Lemma spaces_repeat : forall w, spaces w -> w = repeat c_space (length w).
Proof. intros w S. induction S as [|c w -> S IH]; [reflexivity|]. cbn. now f_equal. Qed.

Lemma stops : forall c, comment_sign c \/ c = 9 -> breaks c = true.
Proof. intros c [[->| ->]| ->]; reflexivity. Qed.

Lemma to_tab_phrase_end : forall p t, phrase p -> ignored_end t -> fst (to_tab [] (p ++ t)) = p.
Proof.
  intros p t (N & Un & Sp & En) T. destruct T as [->|[->|[(c & t' & C & [->| ->])|(t' & ->)]]].
  - rewrite app_nil_r, to_tab_clean by exact Un. cbn. now apply trimSpaceEnd_id.
  - rewrite to_tab_clean by now apply unbroken_snoc. cbn. apply trimSpaceEnd_space.
  - rewrite to_tab_stop by (auto using stops). cbn. now apply trimSpaceEnd_id.
  - change (32 :: c :: t') with ([32] ++ c :: t'). rewrite app_assoc, to_tab_stop by (auto using stops, unbroken_snoc). cbn. apply trimSpaceEnd_space.
  - rewrite to_tab_gap by auto. reflexivity.
Qed.

Lemma account_walk : forall rs acc (previous : bool) t, rs <> [] -> Forall (fun r => r <> 9) rs ->
  single_spaced (if previous then c_space :: rs else rs) = true -> ends_nonspace rs ->
  account_name acc previous (rs ++ t) = account_name (acc ++ rs) false t.
Proof.
  induction rs as [|r rs IH]; intros acc previous t N T S E; [congruence|].
  inversion_clear T as [|? ? Tr T']. cbn [app account_name]. apply Z.eqb_neq in Tr. change (r =? 9) with (r =? c_tab) in Tr. rewrite Tr.
  assert ((r =? c_space) && previous = false) as ->.
  { destruct previous; [|now rewrite andb_false_r]. cbn in S. rewrite andb_true_r.
    apply andb_true_iff in S as [S _]. now apply negb_true_iff in S. }
  assert (Srs : single_spaced (r :: rs) = true).
  { destruct previous; [|exact S]. cbn [single_spaced] in S. now apply andb_true_iff in S as [_ S]. }
  destruct rs as [|r2 rs].
  - unfold ends_nonspace in E. cbn in E. apply Z.eqb_neq in E. rewrite E. reflexivity.
  - rewrite IH; [now rewrite <- app_assoc|discriminate|exact T'| |exact E].
    destruct (r =? c_space) eqn:Er; [|exact (proj2 (proj1 (andb_true_iff _ _) Srs))].
    apply Z.eqb_eq in Er. subst r. exact Srs.
Qed.

Lemma account_bare : forall a t, account_text a -> bare_end t -> account_name [] false (a ++ t) = (a, []).
Proof.
  intros a t (N & L & Sp & T & S & E) B. rewrite account_walk by assumption. destruct B as [->| ->]; [reflexivity|].
  cbn. now rewrite removelast_last.
Qed.
Lemma account_gap : forall a g t, account_text a -> gap g -> exists r w, account_name [] false (a ++ g ++ t) = (a, r :: w ++ t) /\ white (r :: w).
Proof.
  intros a g t (N & L & Sp & T & S & E) (w & W & G). rewrite account_walk by assumption. destruct G as [->|[->| ->]]; cbn [app account_name].
  - exists 9, w. split; [reflexivity|]. constructor; auto.
  - change (32 =? c_tab) with false. change (32 =? c_space) with true. cbn [andb account_name]. change (9 =? c_tab) with true. cbn iota.
    rewrite removelast_last. exists 9, w. split; [reflexivity|]. constructor; auto.
  - change (32 =? c_tab) with false. change (32 =? c_space) with true. cbn [andb account_name].
    change (32 =? c_tab) with false. change (32 =? c_space) with true. cbn [andb]. rewrite removelast_last.
    exists 32, (32 :: w). split; [reflexivity|]. repeat constructor; auto.
Qed.

Lemma hd_app : forall (a b : list Z), a <> [] -> hd 0 (a ++ b) = hd 0 a.
Proof. now intros [|x a] b N. Qed.

Lemma commodity_read : forall c s n t, commodity_text c -> white s -> number_text n ->
  commodity_name U (c ++ s ++ n ++ t) = (c, s ++ n ++ t).
Proof.
  intros c s n t C W [(N & _) H]. apply commodity_name_clean.
  - eapply Forall_impl; [|exact C]. intros r (C1 & C2 & C3 & C4). apply Z.eqb_neq in C2, C3. change (r =? 45) with (r =? c_minus) in C2.
    change (r =? 43) with (r =? c_plus) in C3. rewrite C1, C2, C3. cbn [orb].
    assert (r =? c_space = false) as -> by (apply Z.eqb_neq; intros ->; discriminate C4).
    apply Z.eqb_neq. intros ->. discriminate C4.
  - right. destruct s as [|x s].
    + cbn [app]. rewrite hd_app by exact N. destruct H as [->|[->| ->]]; [reflexivity|cbn..]; now rewrite ?orb_true_r.
    + cbn [app hd]. inversion_clear W as [|? ? X _]. destruct X as [->| ->]; cbn; now rewrite ?orb_true_r.
Qed.

Lemma number_first : forall n, number_text n -> n <> [] /\ isSpace (hd 0 n) = false.
Proof. intros n [(N & _ & Sp & _) _]. auto. Qed.

Lemma lex_margin : forall hint m rest, margin m -> lex_runes U hint (m ++ rest) = posting_line U rest.
Proof.
  intros hint m rest (w & W & [->| ->]).
  - change (lex_runes U hint ((9 :: w) ++ rest)) with (posting_line U (w ++ rest)). unfold posting_line. now rewrite white_drop.
  - change (lex_runes U hint ((32 :: 32 :: w) ++ rest)) with (posting_line U (32 :: w ++ rest)). unfold posting_line.
    change (32 :: w ++ rest) with ((32 :: w) ++ rest). rewrite white_drop; [reflexivity|]. constructor; auto.
Qed.

Lemma letter_comment : forall r, isLetter U r = true -> isCommentIndicator r = false.
Proof. intros r L. destruct (isCommentIndicator r) eqn:C; [|reflexivity]. apply comment_sign_iff in C as [->| ->]; discriminate L. Qed.

Lemma read_posting : forall hint m a g c s n t, margin m -> account_text a -> gap g -> commodity_text c -> white s -> number_text n -> ignored_end t ->
  lex_runes U hint (m ++ a ++ g ++ c ++ s ++ n ++ t) =
  ([(accountItem, a); (commodityItem, if is_nil s || is_nil c then c else c ++ [32]); (amountItem, n)], None).
Proof.
  intros hint m a g c s n t M A G C W N T. rewrite lex_margin by exact M. pose proof A as (Na & L & Sp & _). unfold posting_line.
  rewrite first_drop by assumption. destruct a as [|r a]; [congruence|]. cbn [app]. cbn [hd] in L. rewrite (letter_comment r L), L.
  destruct (account_gap (r :: a) g (c ++ s ++ n ++ t) A G) as (x & w & Q & Ww). cbn [app] in Q. rewrite Q. clear Q.
  change (x :: w ++ c ++ s ++ n ++ t) with ((x :: w) ++ c ++ s ++ n ++ t). cbn iota beta zeta.
  destruct (number_first n N) as [Nn Ns].
  assert (D : drop_space ((x :: w) ++ c ++ s ++ n ++ t) = c ++ s ++ n ++ t \/ c = []).
  { destruct c as [|y c]; [now right|left]. rewrite white_drop by exact Ww. inversion_clear C as [|? ? Y _]. apply first_drop; [discriminate|apply Y]. }
  assert (K : exists s2, commodity_name U (drop_space ((x :: w) ++ c ++ s ++ n ++ t)) = (c, s2 ++ n ++ t) /\ white s2 /\ (c <> [] -> s2 = s) /\ (c = [] -> s2 = [])).
  { destruct c as [|y c].
    - exists []. cbn [app]. rewrite app_comm_cons, (app_assoc (x :: w)), white_drop by (apply Forall_app; split; assumption). rewrite first_drop by assumption.
      split; [apply (commodity_read [] [] n t); auto; constructor|]. split; [constructor|]. split; [congruence|reflexivity].
    - exists s. destruct D as [D|D]; [|discriminate]. rewrite D. split; [now apply commodity_read|]. split; [exact W|]. split; [reflexivity|discriminate]. }
  destruct K as (s2 & K & W2 & S1 & S2). change (x :: w ++ c ++ s ++ n ++ t) with ((x :: w) ++ c ++ s ++ n ++ t). rewrite K.
  rewrite white_drop by exact W2. rewrite first_drop by assumption. rewrite to_tab_phrase_end by (apply N || exact T).
  destruct c as [|y c].
  - rewrite (S2 eq_refl). cbn [app]. rewrite no_width by assumption. cbn. now rewrite orb_true_r.
  - rewrite S1 by discriminate. destruct s as [|z s].
    + cbn [app is_nil orb]. now rewrite no_width by assumption.
    + cbn [is_nil orb]. rewrite (proj2 (Z.ltb_lt _ _)); [reflexivity|]. apply white_width; [exact W|discriminate].
Qed.

Lemma read_elided : forall hint m a t, margin m -> account_text a -> bare_end t -> lex_runes U hint (m ++ a ++ t) = ([(accountItem, a)], None).
Proof.
  intros hint m a t M A B. rewrite lex_margin by exact M. pose proof A as (Na & L & Sp & _). unfold posting_line.
  rewrite first_drop by assumption. pose proof (account_bare a t A B) as Q. destruct a as [|r a]; [congruence|]. cbn [app] in *. cbn [hd] in L.
  rewrite (letter_comment r L), L, Q. reflexivity.
Qed.

Lemma read_remark : forall hint m c s n, margin m -> comment_sign c -> spaces s -> remark n ->
  lex_runes U hint (m ++ c :: s ++ n) = ([(commentItem, n)], None).
Proof.
  intros hint m c s n M C S R. rewrite lex_margin by exact M. unfold posting_line. cbn [drop_space].
  assert (isSpace c = false) as -> by (destruct C as [->| ->]; reflexivity). apply comment_sign_iff in C. rewrite C.
  rewrite (spaces_repeat s S), remark_trim by exact R. reflexivity.
Qed.

Lemma read_noted : forall p e e', phrase p -> noted e e' -> exists items,
  (forall rs t, to_tab [] (p ++ e) = (rs, t) -> rs = p /\ match trimSpaceStart t with [] => [] | _ :: note => [(transactionHeaderCommentItem, trimSpaceStart note)] end = items) /\
  (forall rs t, to_tab [] (p ++ e') = (rs, t) -> rs = p /\ match trimSpaceStart t with [] => [] | _ :: note => [(transactionHeaderCommentItem, trimSpaceStart note)] end = items).
Proof.
  intros p e e' P D. pose proof P as (N & Un & Sp & En).
  assert (Ig : forall t, bare_end t -> to_tab [] (p ++ t) = (p, [])).
  { intros t [->| ->].
    - rewrite app_nil_r, to_tab_clean by exact Un. cbn. now rewrite trimSpaceEnd_id.
    - rewrite to_tab_clean by now apply unbroken_snoc. cbn. now rewrite trimSpaceEnd_space. }
  assert (Ng : forall g c s n, note_gap g -> comment_sign c -> spaces s -> remark n -> exists w, spaces w /\ to_tab [] (p ++ g ++ c :: s ++ n) = (p, w ++ c :: s ++ n)).
  { intros g c s n (w & W & [->|[->| ->]]) C S R.
    - exists w. split; [exact W|]. cbn [app]. rewrite to_tab_stop by (auto; reflexivity). cbn. now rewrite trimSpaceEnd_id.
    - exists w. split; [exact W|]. change ((32 :: 9 :: w) ++ c :: s ++ n) with ([32] ++ 9 :: w ++ c :: s ++ n). rewrite app_assoc.
      rewrite to_tab_stop by (auto using unbroken_snoc; reflexivity). cbn. now rewrite trimSpaceEnd_space.
    - exists (32 :: w). split; [now constructor|]. cbn [app]. change (p ++ 32 :: 32 :: w ++ c :: s ++ n) with (p ++ c_space :: c_space :: w ++ c :: s ++ n).
      now rewrite to_tab_gap by auto. }
  assert (Nt : forall w c s n, spaces w -> comment_sign c -> spaces s -> remark n ->
    match trimSpaceStart (w ++ c :: s ++ n) with [] => [] | _ :: note => [(transactionHeaderCommentItem, trimSpaceStart note)] end = [(transactionHeaderCommentItem, n)]).
  { intros w c s n W C S R. rewrite (spaces_repeat w W), trimSpaceStart_gap by (destruct C as [->| ->]; discriminate).
    now rewrite (spaces_repeat s S), remark_trim. }
  destruct D as [e e' B B'|g g' c c' s s' n G G' C C' S S' R].
  - exists []. split; intros rs t Q; rewrite Ig in Q by assumption; injection Q as <- <-; split; reflexivity.
  - exists [(transactionHeaderCommentItem, n)]. split; intros rs t Q.
    + destruct (Ng g c s n G C S R) as (w & W & X). rewrite X in Q. injection Q as <- <-. split; [reflexivity|]. now apply Nt.
    + destruct (Ng g' c' s' n G' C' S' R) as (w & W & X). rewrite X in Q. injection Q as <- <-. split; [reflexivity|]. now apply Nt.
Qed.

Lemma lex_date : forall hint d rest, date_text d -> lex_runes U hint (d ++ rest) = header_line (d ++ rest).
Proof.
  intros hint [|r d] rest (N & Nu & F); [congruence|]. cbn [hd] in Nu. cbn [app lex_runes].
  assert (isCommentIndicator r = false) as -> by (destruct (isCommentIndicator r) eqn:C; [apply comment_sign_iff in C as [->| ->]; discriminate Nu|reflexivity]).
  assert (r =? c_i = false) as -> by (apply Z.eqb_neq; intros ->; discriminate Nu).
  assert (r =? c_tilde = false) as -> by (apply Z.eqb_neq; intros ->; discriminate Nu). now rewrite Nu.
Qed.

Lemma read_header : forall d s k k' p, date_text d -> white s -> phrase p -> marks p k k' -> forall t, 
  header_line (d ++ 32 :: s ++ k ++ p ++ t) =
    (let '(payee, rs4) := to_tab [] (p ++ t) in
     ([(dateItem, d)] ++ (if is_nil k then [] else [(stateItem, firstn 1 k)]) ++ [(payeeItem, payee)] ++
      match trimSpaceStart rs4 with [] => [] | _ :: note => [(transactionHeaderCommentItem, trimSpaceStart note)] end, None)).
Proof.
  intros d s k k' p (N & Nu & F) W P M t. unfold header_line.
  rewrite until_space_clean; [|eapply Forall_impl; [|exact F]; intros r H; now apply Z.eqb_neq|now right].
  change (32 :: s ++ k ++ p ++ t) with ((32 :: s) ++ k ++ p ++ t). rewrite white_drop by (constructor; auto).
  destruct P as (Np & Un & Sp & En). destruct M as [M1 M2|c w w' C Ww Ww'].
  - cbn [app is_nil]. rewrite first_drop by assumption. destruct p as [|x p]; [congruence|]. cbn [app]. cbn [hd] in *.
    apply Z.eqb_neq in M1, M2. change (x =? 33) with (x =? c_bang) in M1. change (x =? 42) with (x =? c_star) in M2. now rewrite M1, M2.
  - cbn [app is_nil firstn]. cbn [drop_space]. assert (isSpace c = false) as -> by (destruct C as [->| ->]; reflexivity).
    assert ((c =? c_bang) || (c =? c_star) = true) as -> by (destruct C as [->| ->]; reflexivity).
    rewrite white_drop by exact Ww. rewrite first_drop by assumption. reflexivity.
Qed.

Theorem relaid_lexes : forall rs rs', relaid rs rs' -> forall hint, lex_runes U hint rs = lex_runes U hint rs'.
Proof.
  intros rs rs' R hint. destruct R as [m m' a g g' c s s' n t t' M M' A G G' C (W & W' & S) N T T'|m m' a t t' M M' A T T'|m m' c c' s s' n M M' C C' S S' N
    |d s s' k k' p t t' D W W' P K T|s s' p t t' W W' N N' P T T'|s s' p t t' W W' P T T'].
  - rewrite !read_posting by assumption. assert (is_nil s = is_nil s') as ->; [|reflexivity]. destruct s, s'; try reflexivity; exfalso; destruct S as [S1 S2].
    + now specialize (S1 eq_refl).
    + now specialize (S2 eq_refl).
  - now rewrite !read_elided.
  - now rewrite !read_remark.
  - rewrite !lex_date by exact D. rewrite (read_header d s k k' p D W P K).
    assert (K' : marks p k' k) by (inversion K; subst; constructor; auto). rewrite (read_header d s' k' k p D W' P K').
    destruct (read_noted p t t' P T) as (items & H & H'). destruct (to_tab [] (p ++ t)) as [py r4]. destruct (to_tab [] (p ++ t')) as [py' r4'].
    destruct (H _ _ eq_refl) as [-> ->]. destruct (H' _ _ eq_refl) as [-> ->]. inversion K; subst; reflexivity.
  - assert (X : forall w e, white w -> w <> [] -> ignored_end e -> lex_runes U hint (126 :: w ++ p ++ e) = ([(periodItem, p)], None)).
    { clear - P. intros w e W N T. change (lex_runes U hint (126 :: w ++ p ++ e)) with (period_line (w ++ p ++ e)). unfold period_line.
      pose proof (white_width w (p ++ e) W N) as Q. destruct (Z.eqb_spec (space_width (w ++ p ++ e)) 0) as [Z|_]; [lia|].
      rewrite white_drop by exact W. pose proof P as (Np & _ & Sp & _). rewrite first_drop by assumption. now rewrite to_tab_phrase_end. }
    now rewrite !X.
  - assert (X : forall w e, white w -> ignored_end e -> lex_runes U hint (lit "include" ++ 32 :: w ++ p ++ e) = ([(includeItem, decode (dir_of hint) ++ p)], None)).
    { clear - P. intros w e W T. change (lex_runes U hint (lit "include" ++ 32 :: w ++ p ++ e)) with (include_line hint (lit "include" ++ 32 :: w ++ p ++ e)). unfold include_line.
      rewrite until_space_clean; [|repeat constructor|now right]. rewrite str_eqb_refl. cbn [negb].
      change (32 :: w ++ p ++ e) with ((32 :: w) ++ p ++ e). assert (W1 : white (32 :: w)) by (constructor; auto).
      pose proof (white_width (32 :: w) (p ++ e) W1 ltac:(discriminate)) as Q. destruct (Z.eqb_spec (space_width ((32 :: w) ++ p ++ e)) 0) as [Z|_]; [lia|].
      rewrite white_drop by exact W1. pose proof P as (Np & _ & Sp & _). rewrite first_drop by assumption. rewrite to_tab_phrase_end by assumption.
      destruct p; [congruence|reflexivity]. }
    now rewrite !X.
Qed.
End Layout.

(** ** Texts *)
Definition line_by_line (R : list Z -> list Z -> Prop) (a b : str) : Prop :=
  Forall2 (fun l l' => l = l' \/ (one_line l /\ one_line l' /\ R (decode l) (decode l'))) (split 10 a) (split 10 b).
Definition relaid_text (U : unicode) : str -> str -> Prop := line_by_line (relaid U).

(** The lines read, from the texts between line ends. *)
Fixpoint lines_of (ws : list str) : list line :=
  match ws with
  | [] => []
  | [w] => match w with [] => [] | _ => [read_line (w, false)] end
  | w :: ws => read_line (w, true) :: lines_of ws
  end.
Lemma file_lines_of : forall s, file_lines s = lines_of (split 10 s).
Proof.
  assert (K : forall s cur, map read_line (raw_lines cur s) =
    match split 10 s with [] => [] | [w] => match rev cur ++ w with [] => [] | v => [read_line (v, false)] end | w :: ws => read_line (rev cur ++ w, true) :: lines_of ws end).
  { induction s as [|c s IH]; intro cur.
    - cbn. rewrite app_nil_r. destruct cur as [|x cur]; [reflexivity|]. cbn [rev]. destruct (rev cur ++ [x]) eqn:Q; [destruct (rev cur); discriminate|reflexivity].
    - cbn [raw_lines split]. change newline with 10. destruct (c =? 10).
      + cbn [map]. rewrite IH. cbn [rev app]. rewrite app_nil_r. pose proof (split_nonempty 10 s) as N. destruct (split 10 s) as [|w [|w' ws]]; [congruence|now destruct w|reflexivity].
      + rewrite IH. cbn [rev]. pose proof (split_nonempty 10 s) as N. destruct (split 10 s) as [|w [|w' ws]]; [congruence| |]; now rewrite <- app_assoc. }
  intro s. unfold file_lines. rewrite K. destruct (split 10 s) as [|w [|w' ws]]; [reflexivity|now destruct w|reflexivity].
Qed.

(** Items that the parser cannot tell apart. *)
Definition item_same (x y : itemType * list Z) : Prop :=
  fst x = fst y /\
  (snd x = snd y \/
   (fst x = dateItem /\ exists d, parseDate (snd x) = POk d /\ parseDate (snd y) = POk d) \/
   (fst x = amountItem /\ exists q, parseAmount (snd x) = POk q /\ parseAmount (snd y) = POk q)).
Definition items_same (x y : list (itemType * list Z) * option err) : Prop := Forall2 item_same (fst x) (fst y) /\ snd x = snd y.
Lemma items_refl : forall x, items_same x x.
Proof. intros [l e]. split; [|reflexivity]. induction l; constructor; [split; auto|assumption]. Qed.

Definition lexed_alike (U : unicode) (x y : line) : Prop :=
  match x, y with Line l, Line l' => forall hint, items_same (lexLine U hint l) (lexLine U hint l') | LongLine, LongLine => True | _, _ => False end.
Lemma alike_refl : forall U x, lexed_alike U x x.
Proof. intros U [l|]; cbn; auto using items_refl. Qed.

Lemma one_line_read : forall l b, one_line l -> read_line (l, b) = Line l.
Proof.
  intros l b (_ & C & L). unfold read_line, bufferSize. destruct (Z.leb_spec 4096 (Z.of_nat (length l))); [lia|].
  destruct b; [|reflexivity]. now rewrite chop_cr_id.
Qed.

Lemma relaid_nonempty : forall U rs rs', relaid U rs rs' -> rs <> [] /\ rs' <> [].
Proof.
  intros U rs rs' R. assert (Mg : forall m t, margin m -> m ++ t <> []) by (intros m t (w & _ & [->| ->]); discriminate).
  destruct R; try (split; (apply Mg; assumption) || discriminate).
  match goal with D : date_text _ _ |- _ => destruct D as (N & _) end. split; (destruct d; [congruence|discriminate]).
Qed.

Lemma alike_lines : forall U (R : list Z -> list Z -> Prop), (forall rs rs', R rs rs' -> rs <> [] /\ rs' <> [] /\ forall hint, items_same (lex_runes U hint rs) (lex_runes U hint rs')) ->
  forall a b, line_by_line R a b -> Forall2 (lexed_alike U) (file_lines a) (file_lines b).
Proof.
  intros U R HR a b H. rewrite !file_lines_of. unfold line_by_line in H.
  assert (X : forall w w' z, w = w' \/ (one_line w /\ one_line w' /\ R (decode w) (decode w')) -> lexed_alike U (read_line (w, z)) (read_line (w', z))).
  { intros w w' z [->|(O1 & O2 & Q)]; [apply alike_refl|]. rewrite !one_line_read by assumption. intro hint. rewrite !lexLine_spec. now apply HR. }
  induction H as [|w w' ws ws' H F IH]; [constructor|]. destruct F as [|v v' vs vs' H' F].
  - cbn [lines_of]. destruct H as [->|(O1 & O2 & Q)].
    + destruct w'; constructor; [apply alike_refl|constructor].
    + destruct (HR _ _ Q) as (N1 & N2 & _). destruct w as [|x w]; [now destruct N1|]. destruct w' as [|x' w']; [now destruct N2|].
      constructor; [|constructor]. apply X. right. auto.
  - cbn [lines_of]. constructor; [now apply X|]. exact IH.
Qed.

Section Run.
Context {S : Type}.
Variable U : unicode.
Variable th : option (S -> transaction -> str -> S * status).
Variable ph : option (S -> ptransaction -> str -> S * status).

Lemma built_same : forall tb i c c', item_same (i, c) (i, c') -> build tb i c = build tb i c'.
Proof.
  intros tb i c c' [_ A]. cbn [fst snd] in A. destruct A as [H|[[-> (d & H & H')]|[-> (q & H & H')]]]; [now rewrite H| |];
  unfold build, buildPeriodicTransaction, buildNormalTransaction; now rewrite H, H'.
Qed.
Lemma item_step : forall inc inc' i c c' st, (forall p st, inc p st = inc' p st) -> item_same (i, c) (i, c') -> parseItem th ph inc st i c = parseItem th ph inc' st i c'.
Proof.
  intros inc inc' i c c' st H A. assert (B : forall st, build_in st i c = build_in (S := S) st i c') by (intro; unfold build_in; now rewrite (built_same _ i c c' A)).
  destruct i; cbn [parseItem]; try reflexivity; try apply B; try (destruct (endTransaction th ph st) as [st1 []]; rewrite ?B; reflexivity).
  destruct A as [_ [A|[[A _]|[A _]]]]; try discriminate. cbn in A. subst c'. now rewrite H.
Qed.
Lemma items_step : forall inc inc' items items' e, (forall p st, inc p st = inc' p st) -> Forall2 item_same items items' -> forall st,
  parseItems th ph inc st items e = parseItems th ph inc' st items' e.
Proof.
  intros inc inc' items items' e H F. induction F as [|[i c] [i' c'] items items' A F IH]; intro st; cbn [parseItems]; [reflexivity|].
  assert (i = i') as <- by (now destruct A). rewrite (item_step inc inc' i c c' st H A). destruct (parseItem th ph inc' st i c') as [st' []]; auto.
Qed.

Lemma lexLines_alike : forall inc inc' hint bad ls ls', (forall p st, inc p st = inc' p st) -> Forall2 (lexed_alike U) ls ls' -> forall n st,
  lexLines U th ph inc hint bad n ls st = lexLines U th ph inc' hint bad n ls' st.
Proof.
  intros inc inc' hint bad ls ls' H F.
  induction F as [|[l|] [l'|] ls ls' A F IH]; intros n st; cbn [lexLines]; try contradiction; [| |reflexivity].
  - destruct bad; reflexivity.
  - destruct (A hint) as [A1 A2]. destruct (lexLine U hint l) as [items e]. destruct (lexLine U hint l') as [items' e']. cbn in A1, A2. subst e'.
    rewrite (items_step inc inc' items items' e H A1). destruct (parseItems th ph inc' st items' e) as [st' []]; auto.
Qed.

Variable R : str -> str -> Prop.
Hypothesis Rlines : forall a b, R a b -> Forall2 (lexed_alike U) (file_lines a) (file_lines b).
Lemma run_file_alike : forall fs fs', files_related R fs fs' -> forall depth hint f f' st,
  f_bad f = f_bad f' -> f_bytes f = f_bytes f' \/ R (f_bytes f) (f_bytes f') ->
  run_file U fs th ph depth hint f st = run_file U fs' th ph depth hint f' st.
Proof.
  assert (L : forall a b, a = b \/ R a b -> Forall2 (lexed_alike U) (file_lines a) (file_lines b)).
  { intros a b [->|H]; [|now apply Rlines]. induction (file_lines b); constructor; [apply alike_refl|assumption]. }
  intros fs fs' HF. induction depth as [|d IH]; intros hint f f' st B Q; cbn [run_file]; rewrite B; apply lexLines_alike; auto.
  intros p st'. specialize (HF p). destruct (fs p) as [g|], (fs' p) as [g'|]; try contradiction; [|reflexivity].
  destruct HF as [HB HL]. now rewrite (IH p g g' st' HB HL).
Qed.
Lemma parse_alike : forall fs fs', files_related R fs fs' -> forall depth hint f f' s,
  f_bad f = f_bad f' -> f_bytes f = f_bytes f' \/ R (f_bytes f) (f_bytes f') ->
  parse U fs th ph depth hint f s = parse U fs' th ph depth hint f' s.
Proof. intros fs fs' HF depth hint f f' s B H. unfold parse. now rewrite (run_file_alike fs fs' HF depth hint f f' _ B H). Qed.
End Run.

Lemma program_alike : forall E L help_text library fs' (R : str -> str -> Prop), (forall a b, R a b -> Forall2 (lexed_alike (e_unicode E)) (file_lines a) (file_lines b)) ->
  files_related R (e_fs E) fs' -> forall argv, gledger E L help_text library argv = gledger (with_files E fs' (e_depth E)) L help_text library argv.
Proof.
  intros E L help_text library fs' R HR F. apply same_program. intros O D th ph s. unfold parse_cmd. cbn [with_files e_unicode e_fs e_depth e_ledger_file].
  destruct (match o_file O with [] => e_ledger_file E | f => Some f end) as [p|]; [|reflexivity]. pose proof (F p) as G.
  destruct (e_fs E p) as [f|], (fs' p) as [f'|]; try contradiction; [|reflexivity]. destruct G as [B H]. now apply (parse_alike _ th ph R HR).
Qed.

Lemma relaid_lines : forall U a b, relaid_text U a b -> Forall2 (lexed_alike U) (file_lines a) (file_lines b).
Proof.
  intro U. apply alike_lines. intros rs rs' H. destruct (relaid_nonempty _ _ _ H) as [N N']. split; [exact N|split; [exact N'|]].
  intro hint. rewrite (relaid_lexes U rs rs' H hint). apply items_refl.
Qed.

(** Lines of any files may be laid out differently: every command does the same,
    and reports errors at the same places. *)
Theorem C85_layout : forall S U fs fs' th ph depth hint f f' (s : S),
  files_related (relaid_text U) fs fs' -> f_bad f = f_bad f' -> (f_bytes f = f_bytes f' \/ relaid_text U (f_bytes f) (f_bytes f')) ->
  parse U fs th ph depth hint f s = parse U fs' th ph depth hint f' s.
Proof. intros S U fs fs' th ph depth hint f f' s HF B R. now apply (parse_alike U th ph (relaid_text U) (relaid_lines U)). Qed.

Theorem C85_program : forall E L help_text library fs', files_related (relaid_text (e_unicode E)) (e_fs E) fs' -> forall argv,
  gledger E L help_text library argv = gledger (with_files E fs' (e_depth E)) L help_text library argv.
Proof. intros E L help_text library fs' F. now apply (program_alike E L help_text library fs' _ (relaid_lines (e_unicode E))). Qed.

Definition wide : str := lit "2024/01/02 *   Corner Shop   ; weekly
      Assets:Cash      $  -2 ; gone
	Food:Fresh fruit 
    ;   for later
~   Monthly
include   other.journal
".
Definition narrow : str := lit "2024/01/02 *Corner Shop	# weekly
  Assets:Cash	$ -2
  Food:Fresh fruit
	#for later
~ Monthly  ; or so
include other.journal ;
".
Ltac here := vm_compute; repeat first [reflexivity|discriminate|tauto|constructor].
Lemma one_line_b : forall l, negb (existsb (Z.eqb 10) l) && negb (last l 0 =? 13) && (Z.of_nat (length l) <? 4096) = true -> one_line l.
Proof.
  intros l H. apply andb_true_iff in H as [H L]. apply andb_true_iff in H as [N C]. apply Z.ltb_lt in L.
  apply negb_true_iff in N, C. apply Z.eqb_neq in C. split; [|split; [exact C|lia]].
  intro I. assert (existsb (Z.eqb 10) l = true) by (apply existsb_exists; exists 10; split; [exact I|reflexivity]). congruence.
Qed.
Ltac with_blank w := exists w; split; [solve [here]|solve [reflexivity|left; reflexivity|right; left; reflexivity|right; right; reflexivity|right; reflexivity]].
Ltac blank := first [with_blank (@nil Z)|with_blank [32]|with_blank [32;32]|with_blank [32;32;32]|with_blank [32;32;32;32]].
Example C85_example : relaid_text U0 wide narrow /\ wide <> narrow.
Proof.
  split; [|vm_compute; discriminate]. unfold relaid_text, line_by_line.
  let a := eval vm_compute in (split 10 wide) in change (split 10 wide) with a.
  let a := eval vm_compute in (split 10 narrow) in change (split 10 narrow) with a.
  repeat (apply Forall2_cons).
  - right. split; [apply one_line_b; reflexivity|split; [apply one_line_b; reflexivity|]]. vm_compute decode.
    apply (RelaidHeader U0 (lit "2024/01/02") [] [] (lit "*   ") (lit "*") (lit "Corner Shop") (lit "   ; weekly") (9 :: lit "# weekly")); try (here; fail).
    apply (NotedIt (lit "   ") [9] 59 35 [32] [32] (lit "weekly")); try (here; fail); blank.
  - right. split; [apply one_line_b; reflexivity|split; [apply one_line_b; reflexivity|]]. vm_compute decode.
    apply (RelaidPosting U0 (lit "      ") (lit "  ") (lit "Assets:Cash") (lit "      ") [9] (lit "$") (lit "  ") [32] (lit "-2") (lit " ; gone") []); try (here; fail); try (blank; fail).
    right. right. left. exists 59, (lit " gone"). split; [left; now left|now right].
  - right. split; [apply one_line_b; reflexivity|split; [apply one_line_b; reflexivity|]]. vm_compute decode.
    apply (RelaidElided U0 [9] (lit "  ") (lit "Food:Fresh fruit") [32] []); try (here; fail); blank.
  - right. split; [apply one_line_b; reflexivity|split; [apply one_line_b; reflexivity|]]. vm_compute decode.
    apply (RelaidComment U0 (lit "    ") [9] 59 35 (lit "   ") [] (lit "for later")); try (here; fail); blank.
  - right. split; [apply one_line_b; reflexivity|split; [apply one_line_b; reflexivity|]]. vm_compute decode.
    apply (RelaidPeriod U0 (lit "   ") [32] (lit "Monthly") [] (lit "  ; or so")); try (here; fail).
    right. right. right. exists (lit "; or so"). reflexivity.
  - right. split; [apply one_line_b; reflexivity|split; [apply one_line_b; reflexivity|]]. vm_compute decode.
    apply (RelaidInclude U0 (lit "  ") [] (lit "other.journal") [] (lit " ;")); try (here; fail).
    right. right. left. exists 59, []. split; [left; now left|now right].
  - now left.
  - constructor.
Qed.
