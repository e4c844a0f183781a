(** * What arguments that are plain words select: C97

    Regular expressions are the library's; for those without special characters
    what they match is easily said. *)
From Verif Require Import Base BaseFacts Utf8 Utf8Facts Unicode GoTime Strconv Display Journal Lexer Parser Account Reporting Cmd
  FlatSpec Spec TextSpec CalendarFacts CmdSpec CmdFacts ReportSpec TreeSpec Sample PropsCmd PropsJoin.

(** Characters that stand for themselves in a regular expression: ASCII but for
    the control characters and  $ ( ) * + . ? [ \ ] ^ { | } *)
Definition plain_char (c : Z) : Prop := 32 <= c < 127 /\ ~ In c (lit "$()*+.?[\]^{|}").
Definition word (w : str) : Prop := Forall plain_char w.

(** The word occurs in the text. *)
Definition occurs (w s : str) : Prop := exists a b, s = a ++ w ++ b.

(** ... with letters of either case.  To Unicode the Kelvin sign is a K and the
    long s an S. *)
Inductive alike_but_case : Z -> str -> Prop :=
| SameChar : forall c, alike_but_case c [c]
| Capital : forall c, 97 <= c <= 122 -> alike_but_case c [c - 32]
| Small : forall c, 65 <= c <= 90 -> alike_but_case c [c + 32]
| Kelvin : forall c, c = 75 \/ c = 107 -> alike_but_case c [226; 132; 170]
| LongS : forall c, c = 83 \/ c = 115 -> alike_but_case c [197; 191].
Definition occurs_in_any_case (w s : str) : Prop := exists a x b, s = a ++ concat x ++ b /\ Forall2 alike_but_case w x.

(** package regexp, on words. *)
Definition words_match (E : env) : Prop := forall w, word w ->
  e_re_ok E w = true /\ e_re_ok E (lit "(?i)" ++ w) = true /\
  forall s, (e_re_match E w s = true <-> occurs w s) /\ (e_re_match E (lit "(?i)" ++ w) s = true <-> occurs_in_any_case w s).

(** A word with a capital is found as it is, any other in either case. *)
Definition found (w s : str) : Prop :=
  Exists (fun c => 65 <= c <= 90) w /\ occurs w s \/ Forall (fun c => ~ 65 <= c <= 90) w /\ occurs_in_any_case w s.

(** What can be asked for on the command line. *)
Inductive asked := ByAccount (w : str) | ByPayee (w : str) | ByNote (w : str).
Definition asked_text (q : asked) : str := match q with ByAccount w => w | ByPayee w => 64 :: w | ByNote w => 61 :: w end.
Definition proper_question (q : asked) : Prop :=
  match q with ByAccount w => word w /\ w <> [] /\ hd 0 w <> 64 /\ hd 0 w <> 61 | ByPayee w | ByNote w => word w end.

(** The whole transaction answers; the posting does. *)
Definition txn_answers (q : asked) (t : transaction) : Prop :=
  match q with
  | ByAccount _ => False
  | ByPayee w => found w (t_payee t)
  | ByNote w => found w (t_headernote t) \/ Exists (found w) (t_notes t)
  end.
Definition posting_answers (q : asked) (p : posting) : Prop :=
  match q with
  | ByAccount w => found w (po_account p)
  | ByPayee _ => False
  | ByNote w => Exists (found w) (po_comments p)
  end.

(** Of [us] exactly those that meet [P], in order. *)
Inductive kept {A} (P : A -> Prop) : list A -> list A -> Prop :=
| KeptNone : kept P [] []
| KeptNot : forall u us sel, ~ P u -> kept P us sel -> kept P (u :: us) sel
| KeptIt : forall u us sel, P u -> kept P us sel -> kept P (u :: us) (u :: sel).

Lemma word_ascii : forall w, word w -> Forall ascii w.
Proof. intros w H. eapply Forall_impl; [|exact H]. intros c [H1 _]. unfold ascii. lia. Qed.
Lemma capitals : forall U w, word w -> (existsb (isUpper U) (decode w) = true <-> Exists (fun c => 65 <= c <= 90) w).
Proof.
  intros U w H. rewrite decode_ascii by now apply word_ascii. rewrite existsb_exists, Exists_exists.
  split; intros (c & I & K); exists c; (split; [exact I|]); unfold word in H; rewrite Forall_forall in H; destruct (H _ I) as [B _]; unfold isUpper in *.
  - destruct (c <? 0) eqn:X; [discriminate|]. destruct (c <=? 255) eqn:Y; [|apply Z.leb_gt in Y; lia].
    rewrite !orb_true_iff in K. rewrite !between_iff in K. lia.
  - destruct (c <? 0) eqn:X; [apply Z.ltb_lt in X; lia|]. destruct (c <=? 255) eqn:Y; [|apply Z.leb_gt in Y; lia].
    rewrite !orb_true_iff. rewrite !between_iff. lia.
Qed.
Lemma no_capitals : forall w, ~ Exists (fun c => 65 <= c <= 90) w <-> Forall (fun c => ~ 65 <= c <= 90) w.
Proof. intro w. symmetry. apply Forall_Exists_neg. Qed.

Section Words.
Variable E : env.
Hypothesis Words : words_match E.

Lemma found_spec : forall w s, word w -> (e_re_match E (case_text E w) s = true <-> found w s).
Proof.
  intros w s W. destruct (Words w W) as (_ & _ & M). destruct (M s) as [M1 M2]. unfold case_text, found. pose proof (capitals (e_unicode E) w W) as C.
  destruct (existsb _ _).
  - assert (X : Exists (fun c => 65 <= c <= 90) w) by now apply C. rewrite M1, <- no_capitals. tauto.
  - assert (X : ~ Exists (fun c => 65 <= c <= 90) w) by (intro X; apply C in X; discriminate). rewrite M2, <- no_capitals. tauto.
Qed.
Lemma word_ok : forall w, word w -> e_re_ok E (case_text E w) = true.
Proof. intros w W. destruct (Words w W) as (A & B & _). unfold case_text. destruct (existsb _ _); assumption. Qed.

Definition filter_of (q : asked) : filter_ :=
  match q with ByAccount w => Filter (case_text E w) AccountNameFilter | ByPayee w => Filter (case_text E w) PayeeFilter | ByNote w => Filter (case_text E w) NoteFilter end.

Lemma words_filters : forall qs, Forall proper_question qs -> filters_for E (map asked_text qs) (map filter_of qs).
Proof.
  intros qs H. split.
  - induction H as [|q qs P _ IH]; cbn [map]; constructor; auto.
    destruct q as [w|w|w]; [destruct P as (_ & P1 & P2 & P3); now constructor|constructor|constructor].
  - apply Forall_map. eapply Forall_impl; [|exact H]. intros q P. destruct q as [w|w|w]; cbn [filter_of f_regex]; apply word_ok; [apply P|exact P|exact P].
Qed.

Lemma words_whole : forall qs t, Forall proper_question qs -> (whole_hit E (map filter_of qs) t = true <-> exists q, In q qs /\ txn_answers q t).
Proof.
  intros qs t H. rewrite Forall_forall in H. unfold whole_hit. rewrite existsb_exists. split.
  - intros (f & I & K). apply in_map_iff in I as (q & <- & I). exists q. split; [exact I|]. specialize (H _ I). destruct q as [w|w|w]; cbn [filter_of f_type f_regex] in K; cbn [txn_answers]; [discriminate| |].
    + now apply found_spec.
    + apply orb_true_iff in K as [K|K]; [left; now apply found_spec|right]. apply existsb_exists in K as (n & J & K). apply Exists_exists. exists n. split; [exact J|now apply found_spec].
  - intros (q & I & K). exists (filter_of q). split; [now apply in_map|]. specialize (H _ I). destruct q as [w|w|w]; cbn [filter_of f_type f_regex]; cbn [txn_answers] in K; [contradiction| |].
    + now apply found_spec.
    + apply orb_true_iff. destruct K as [K|K]; [left; now apply found_spec|right]. apply Exists_exists in K as (n & J & K). apply existsb_exists. exists n. split; [exact J|now apply found_spec].
Qed.
Lemma words_posting : forall qs p, Forall proper_question qs -> (posting_hit E (map filter_of qs) p = true <-> exists q, In q qs /\ posting_answers q p).
Proof.
  intros qs p H. rewrite Forall_forall in H. unfold posting_hit. rewrite existsb_exists. split.
  - intros (f & I & K). apply in_map_iff in I as (q & <- & I). exists q. split; [exact I|]. specialize (H _ I). destruct q as [w|w|w]; cbn [filter_of f_type f_regex] in K; cbn [posting_answers]; [|discriminate|].
    + apply found_spec; [apply H|exact K].
    + apply existsb_exists in K as (n & J & K). apply Exists_exists. exists n. split; [exact J|now apply found_spec].
  - intros (q & I & K). exists (filter_of q). split; [now apply in_map|]. specialize (H _ I). destruct q as [w|w|w]; cbn [filter_of f_type f_regex]; cbn [posting_answers] in K; [|contradiction|].
    + apply found_spec; [apply H|exact K].
    + apply Exists_exists in K as (n & J & K). apply existsb_exists. exists n. split; [exact J|now apply found_spec].
Qed.

(** A transaction is dealt with if it or one of its postings answers. *)
Definition answers (qs : list asked) (t : transaction) : Prop :=
  qs = [] \/ (exists q, In q qs /\ txn_answers q t) \/ (exists q p, In q qs /\ In p (t_postings t) /\ posting_answers q p).

Lemma words_hit : forall qs t, Forall proper_question qs -> (hit E (map filter_of qs) t = true <-> answers qs t).
Proof.
  intros qs t H. unfold answers. destruct qs as [|q0 qs]; [cbn; tauto|]. unfold hit. cbn [map]. fold (map filter_of qs). change (filter_of q0 :: map filter_of qs) with (map filter_of (q0 :: qs)).
  rewrite orb_true_iff, words_whole, existsb_exists by exact H. split.
  - intros [X|(p & I & X)]; [auto|]. apply words_posting in X; [|exact H]. destruct X as (q & J & X). right. right. eauto.
  - intros [X|[X|(q & p & J & I & X)]]; [discriminate|auto|]. right. exists p. split; [exact I|]. apply words_posting; eauto.
Qed.

(** What each command deals with: of the transactions in the range of dates those
    that answer, all their postings if the transaction answers, otherwise those
    postings that do. *)
Definition processed (O : opts) (qs : list asked) (us : list used) (sel : list (used * list posting)) : Prop :=
  kept (fun u => within E O (u_n u) (t_date (u_txn u)) /\ answers qs (u_txn u)) us (map fst sel) /\
  Forall (fun z => exists ps, Permutation (snd z) ps /\
    kept (fun p => qs = [] \/ (exists q, In q qs /\ (txn_answers q (u_txn (fst z)) \/ posting_answers q p))) (t_postings (u_txn (fst z))) ps) sel.

Lemma kept_all : forall A (P : A -> Prop) l, (forall x, P x) -> kept P l l.
Proof. intros A P l H. induction l; [constructor|apply KeptIt; auto]. Qed.
Lemma kept_filter : forall A (P : A -> Prop) f l, (forall x, f x = true <-> P x) -> kept P l (filter f l).
Proof.
  intros A P f l H. induction l as [|x l IH]; cbn [filter]; [constructor|]. destruct (f x) eqn:F.
  - apply KeptIt; [now apply H|exact IH].
  - apply KeptNot; [|exact IH]. intro X. apply H in X. congruence.
Qed.

Theorem C97_processed : forall O qs, o_args O = map asked_text qs -> Forall proper_question qs ->
  exists fs, filters_for E (o_args O) fs /\ forall us sel, picks E O fs us sel -> processed O qs us sel.
Proof.
  intros O qs A H. exists (map filter_of qs). rewrite A. split; [now apply words_filters|]. intros us sel P. unfold processed.
  induction P as [|u us sel No P [IH1 IH2]|u us sel ps W Hh Pm Wh P [IH1 IH2]]; cbn [map fst]; (split; [|try constructor; auto]).
  - constructor.
  - apply KeptNot; [|exact IH1]. intros [W A']. apply words_hit in A'; [|exact H]. destruct No as [No|No]; [contradiction|congruence].
  - apply KeptIt; [|exact IH1]. split; [exact W|]. now apply words_hit.
  - cbn [fst snd]. exists (hits E (map filter_of qs) (u_txn u)). split; [exact Pm|].
    unfold hits. destruct qs as [|q0 qs]; [cbn; apply kept_all; auto|]. cbn [map]. fold (map filter_of qs). change (filter_of q0 :: map filter_of qs) with (map filter_of (q0 :: qs)).
    destruct (whole_hit E (map filter_of (q0 :: qs)) (u_txn u)) eqn:Wt.
    + apply words_whole in Wt; [|exact H]. destruct Wt as (q & I & T). apply kept_all. intro p. right. exists q. auto.
    + apply kept_filter. intro p. rewrite words_posting by exact H. split.
      * intros (q & I & T). right. exists q. auto.
      * intros [X'|(q & I & [T|T])]; [discriminate| |eauto].
        exfalso. assert (Y : whole_hit E (map filter_of (q0 :: qs)) (u_txn u) = true) by (apply words_whole; eauto). congruence.
Qed.

(** What balance computes: for every account the sum of the postings taken at or
    below it. *)
Theorem C97_balance : forall O qs, sane_clock E -> orders E -> o_args O = map asked_text qs -> Forall proper_question qs -> o_show_zero O = true ->
  r_status (balance_cmd E O) = SOk ->
  exists sel t, processed O qs (txns 0 (fst (stream E O))) sel /\ balance_tree E O t /\
    forall q d, node t q d <-> (q = [] \/ shown true (taken sel) q) /\ holds (taken sel) q d.
Proof.
  intros O qs C Or A H Sz Ok. destruct (C97_processed O qs A H) as (fs & F & K).
  destruct (balance_shows E O fs C Or F Sz Ok) as (sel & t & P & B & N). exists sel, t. auto.
Qed.

Theorem C97_print : forall O qs, sane_clock E -> orders E -> sorts E -> o_args O = map asked_text qs -> Forall proper_question qs -> CmdSpec.readable E O ->
  exists sel ts, kept (fun u => within E O (u_n u) (t_date (u_txn u)) /\ answers qs (u_txn u)) (txns 0 (fst (stream E O))) sel /\
    Permutation ts (map u_txn sel) /\ date_ordered ts /\ print_cmd E O = Outcome (lines (map transaction_string ts)) SOk.
Proof.
  intros O qs C Or So A H R. destruct (C97_processed O qs A H) as (fs & F & K).
  destruct (proj1 (C42_print E O fs C Or So F) R) as (sel & ts & P & Pm & D & Q). destruct (K _ _ P) as [K1 _].
  exists (map fst sel), ts. rewrite map_map. split; [exact K1|]. split; [exact Pm|]. auto.
Qed.

(** Accounts and payees list the names in which one of the words is found. *)
Theorem C97_listings : forall O, sane_clock E -> orders E -> Forall (fun w => word w /\ w <> [] /\ hd 0 w <> 64 /\ hd 0 w <> 61) (o_args O) -> CmdSpec.readable E O ->
  exists sel accs pays_, in_range E O (txns 0 (fst (stream E O))) sel /\
    accounts_cmd E O = Outcome (lines accs) SOk /\ ascending accs /\ payees_cmd E O = Outcome (lines pays_) SOk /\ ascending pays_ /\
    (forall a, In a accs <-> (exists u p, In u sel /\ In p (t_postings (u_txn u)) /\ po_account p = a) /\ (o_args O = [] \/ Exists (fun w => found w a) (o_args O))) /\
    (forall a, In a pays_ <-> (exists u, In u sel /\ t_payee (u_txn u) = a) /\ (o_args O = [] \/ Exists (fun w => found w a) (o_args O))).
Proof.
  intros O C Or H R. set (qs := map ByAccount (o_args O)).
  assert (A : o_args O = map asked_text qs) by (unfold qs; rewrite map_map; symmetry; apply map_id).
  assert (P : Forall proper_question qs) by (apply Forall_map; exact H).
  pose proof (words_filters qs P) as F. rewrite <- A in F.
  assert (Ok : Forall (fun a => e_re_ok E (case_text E a) = true) (o_args O)).
  { eapply Forall_impl; [|exact H]. intros w [W _]. now apply word_ok. }
  destruct (proj1 (C40_accounts E O _ C Or F) R) as (s1 & accs & R1 & Q1 & As1 & I1).
  destruct (proj1 (C41_payees E O _ C Or F Ok) R) as (s2 & ps & R2 & Q2 & As2 & I2).
  assert (s2 = s1) as ->.
  { clear -R1 R2. revert s2 R2. induction R1 as [|u us sel No R IH|u us sel W R IH]; intros s2 R2; inversion R2; subst; try contradiction; auto. f_equal. auto. }
  exists s1, accs, ps. split; [exact R1|]. split; [exact Q1|]. split; [exact As1|]. split; [exact Q2|]. split; [exact As2|].
  rewrite Forall_forall in H. split; intro a; [rewrite I1|rewrite I2]; unfold uses, pays; rewrite Exists_exists.
  - assert (N : map filter_of qs = [] <-> o_args O = []) by (unfold qs; destruct (o_args O); cbn; split; congruence).
    rewrite N. assert (X : (exists f, In f (map filter_of qs) /\ e_re_match E (f_regex f) a = true) <-> exists w, In w (o_args O) /\ found w a); [|now rewrite X].
    unfold qs. rewrite map_map. split.
    + intros (f & I & M). apply in_map_iff in I as (w & <- & I). exists w. split; [exact I|]. apply found_spec; [now apply H|exact M].
    + intros (w & I & M). exists (filter_of (ByAccount w)). split; [apply in_map_iff; eauto|]. apply found_spec; [now apply H|exact M].
  - assert (X : (exists w, In w (o_args O) /\ e_re_match E (case_text E w) a = true) <-> exists w, In w (o_args O) /\ found w a); [|now rewrite X].
    split; intros (w & I & M); exists w; (split; [exact I|]); apply found_spec; auto; now apply H.
Qed.
End Words.

(** ** A machine that matches words *)
Fixpoint begins (w s : str) : bool :=
  match w, s with
  | [], _ => true
  | c :: w', x :: s' => (c =? x) && begins w' s'
  | _, [] => false
  end.
Definition same_letter (c x : Z) : bool :=
  (c =? x) || (between 97 c 122 && (x =? c - 32)) || (between 65 c 90 && (x =? c + 32)).
Fixpoint begins_any (w s : str) : bool :=
  match w with
  | [] => true
  | c :: w' =>
      match s with x :: s' => same_letter c x && begins_any w' s' | [] => false end ||
      begins [226; 132; 170] s && ((c =? 75) || (c =? 107)) && begins_any w' (skipn 3 s) ||
      begins [197; 191] s && ((c =? 83) || (c =? 115)) && begins_any w' (skipn 2 s)
  end.
Fixpoint somewhere (f : str -> bool) (s : str) : bool :=
  f s || match s with [] => false | _ :: s' => somewhere f s' end.
Definition word_engine (r s : str) : bool :=
  if begins (lit "(?i)") r then somewhere (begins_any (skipn 4 r)) s else somewhere (begins r) s.
Definition env2 (files : list (str * str)) : env :=
  let e := env0 files in
  Env (e_unicode e) (e_fs e) (e_depth e) (e_ledger_file e) (e_re_ok e) word_engine (e_year e) (e_tomorrow e) (e_local e)
    (e_order e) (e_tree_order e) (e_sort e) (e_now e).

Lemma begins_iff : forall w s, begins w s = true <-> exists b, s = w ++ b.
Proof.
  induction w as [|c w IH]; intro s; [cbn; split; [exists s; reflexivity|reflexivity]|]. destruct s as [|x s]; cbn [begins].
  - split; [discriminate|]. intros [b X]. discriminate.
  - rewrite andb_true_iff, Z.eqb_eq, IH. split.
    + intros (-> & b & ->). exists b. reflexivity.
    + intros [b X]. injection X as -> ->. split; [reflexivity|eauto].
Qed.
Lemma somewhere_iff : forall f s, somewhere f s = true <-> exists a b, s = a ++ b /\ f b = true.
Proof.
  intros f s. induction s as [|x s IH]; cbn [somewhere]; rewrite orb_true_iff.
  - split; [intros [H|H]; [exists [], []; auto|discriminate]|]. intros (a & b & X & H). symmetry in X. apply app_eq_nil in X as [-> ->]. auto.
  - rewrite IH. split.
    + intros [H|(a & b & -> & H)]; [exists [], (x :: s); auto|exists (x :: a), b; auto].
    + intros ([|y a] & b & X & H); cbn in X; [subst b; auto|injection X as -> ->; right; eauto].
Qed.
Lemma same_letter_iff : forall c x, same_letter c x = true <-> alike_but_case c [x].
Proof.
  intros c x. unfold same_letter. rewrite !orb_true_iff, !andb_true_iff, !between_iff, !Z.eqb_eq. split.
  - intros [[->|[H ->]]|[H ->]]; now constructor.
  - intro H. inversion H; subst; auto.
Qed.
Lemma begins_any_iff : forall w s, begins_any w s = true <-> exists x b, s = concat x ++ b /\ Forall2 alike_but_case w x.
Proof.
  induction w as [|c w IH]; intro s; [cbn; split; [exists [], s; auto|reflexivity]|].
  assert (Step : begins_any (c :: w) s = true <-> exists y s', alike_but_case c y /\ s = y ++ s' /\ begins_any w s' = true).
  { cbn [begins_any]. rewrite !orb_true_iff. split.
    - intros [[H|H]|H].
      + destruct s as [|x s]; [discriminate|]. apply andb_true_iff in H as [H1 H2]. apply same_letter_iff in H1. exists [x], s. auto.
      + rewrite !andb_true_iff, orb_true_iff, !Z.eqb_eq, begins_iff in H. destruct H as [[[b ->] H] B]. exists [226; 132; 170], b. split; [now apply Kelvin|auto].
      + rewrite !andb_true_iff, orb_true_iff, !Z.eqb_eq, begins_iff in H. destruct H as [[[b ->] H] B]. exists [197; 191], b. split; [now apply LongS|auto].
    - intros (y & s' & H & -> & B). inversion H; subst; cbn [app].
      1-3: left; left; apply andb_true_iff; (split; [apply same_letter_iff; now constructor|exact B]).
      + left. right. rewrite !andb_true_iff, orb_true_iff, !Z.eqb_eq. auto.
      + right. rewrite !andb_true_iff, orb_true_iff, !Z.eqb_eq. auto. }
  rewrite Step. split.
  - intros (y & s' & H & -> & B). apply IH in B as (x & b & -> & F). exists (y :: x), b. split; [cbn; now rewrite app_assoc|now constructor].
  - intros (x & b & -> & F). inversion F as [|? y ? x' H F']; subst. exists y, (concat x' ++ b). split; [exact H|]. split; [cbn; now rewrite app_assoc|]. apply IH. eauto.
Qed.

Lemma env2_words : forall files, words_match (env2 files).
Proof.
  intros files w W. split; [reflexivity|]. split; [reflexivity|]. intro s. cbn [env2 e_re_match]. unfold word_engine. split.
  - assert (begins (lit "(?i)") w = false) as ->.
    { destruct w as [|c w]; [reflexivity|]. inversion W as [|? ? [_ N] _]; subst. cbn [begins lit]. change (begins (lit "(?i)") (c :: w)) with ((40 =? c) && begins (lit "?i)") w).
      destruct (40 =? c) eqn:Q; [|reflexivity]. apply Z.eqb_eq in Q. subst c. exfalso. apply N. cbn. auto. }
    rewrite somewhere_iff. unfold occurs. split.
    + intros (a & b & -> & B). apply begins_iff in B as (b' & ->). eauto.
    + intros (a & b & ->). exists a, (w ++ b). split; [reflexivity|]. apply begins_iff. eauto.
  - change (begins (lit "(?i)") (lit "(?i)" ++ w)) with true. change (skipn 4 (lit "(?i)" ++ w)) with w. cbn iota.
    rewrite somewhere_iff. unfold occurs_in_any_case. split.
    + intros (a & b & -> & B). apply begins_any_iff in B as (x & b' & -> & F). exists a, x, b'. auto.
    + intros (a & x & b & -> & F). exists a, (concat x ++ b). split; [reflexivity|]. apply begins_any_iff. eauto.
Qed.

Definition text_words : str :=
  lit "2021-03-01 Rent March" ++ [10] ++ lit "    exp:Rent    $3" ++ [10] ++ lit "    bank    $-3" ++ [10; 10] ++
  lit "2021-03-02 Shop" ++ [10] ++ lit "    exp:food    $1" ++ [10] ++ lit "    Parents    $-1" ++ [10; 10] ++
  lit "2021-03-03 Bar" ++ [10] ++ lit "    ; drinks" ++ [10] ++ lit "    fun    $1" ++ [10] ++ lit "    bank    $-1" ++ [10].
Definition with_zero (O : opts) : opts := Opts (o_file O) (o_begin O) (o_end O) (o_current O) (o_args O) (o_flatten O) (o_collapse O) true.
Example C97_example :
  let E := env2 [(lit "j", text_words)] in
  let qs := [ByAccount (lit "rent"); ByNote (lit "drink")] in
  let O := opts3 [] [] false (map asked_text qs) in let O2 := opts3 [] [] false [lit "Rent"; lit "shop"] in
  words_match E /\ sane_clock E /\ orders E /\ sorts E /\ Forall proper_question qs /\ CmdSpec.readable E O /\ CmdSpec.readable E O2 /\
  Forall (fun w => word w /\ w <> [] /\ hd 0 w <> 64 /\ hd 0 w <> 61) (o_args O2) /\
  r_status (balance_cmd E (with_zero O)) = SOk /\ length (r_out (print_cmd E O)) = 3%nat /\
  r_out (print_cmd E (opts3 [] [] false [lit "@rent"])) = [lit "2021-03-01   Rent March" ++ [10] ++ lit "    exp:Rent    $3.00" ++ [10] ++ lit "    bank    $-3.00" ++ [10; 10]] /\
  r_out (accounts_cmd E O2) = [lit "exp:Rent" ++ [10]] /\
  r_out (payees_cmd E O2) = [lit "Rent March" ++ [10]; lit "Shop" ++ [10]].
Proof.
  intros E qs O O2. split; [apply env2_words|]. split; [intro n; cbn; lia|]. split; [split; intros; apply Permutation_refl|]. split; [exact (env0_sorts [])|].
  assert (W : forall w, forallb (fun c => (32 <=? c) && (c <? 127) && negb (existsb (Z.eqb c) (lit "$()*+.?[\]^{|}"))) w = true -> word w).
  { intros w H. apply Forall_forall. intros c I. rewrite forallb_forall in H. specialize (H _ I). rewrite !andb_true_iff, negb_true_iff, Z.leb_le, Z.ltb_lt in H.
    split; [lia|]. intro J. destruct H as [_ H]. assert (K : existsb (Z.eqb c) (lit "$()*+.?[\]^{|}") = true) by (apply existsb_exists; exists c; split; [exact J|apply Z.eqb_refl]). congruence. }
  split; [apply Forall_cons; [split; [apply W; reflexivity|cbn; repeat split; congruence]|apply Forall_cons; [apply W; reflexivity|apply Forall_nil]]|].
  split; [apply readable_noflags; vm_compute; reflexivity|]. split; [apply readable_noflags; vm_compute; reflexivity|].
  split; [apply Forall_cons; [|apply Forall_cons; [|apply Forall_nil]]; (split; [apply W; reflexivity|cbn; repeat split; congruence])|].
  split; [vm_compute; reflexivity|]. split; [vm_compute; reflexivity|]. split; [vm_compute; reflexivity|]. split; vm_compute; reflexivity.
Qed.
