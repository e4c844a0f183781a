(** * C127: budget entries are seen by budget alone *)
From Verif Require Import Base BaseFacts Utf8 Unicode GoTime Strconv Display Journal JournalFacts Lexer Parser ParserFacts Account Reporting Cmd Spec TextSpec JournalText
  TreeSpec TreeFacts ReportSpec CmdSpec CmdFacts BalanceFacts FlatSpec BookText WholeFacts Sample PropsText PropsParser PropsCmd PropsInput PropsPanic PropsPrint PropsReread PropsConcat PropsJoin PropsAgain PropsWhole PropsBook ProgramFacts.

(** Two runs end alike: the same output and, the place named in a message aside,
    the same end. *)
Definition alike (r r' : outcome) : Prop := r_out r' = r_out r /\ strip_st (r_status r') = strip_st (r_status r).
(** The commands other than budget. *)
Definition commands_alike (E E' : env) (O : opts) : Prop :=
  alike (accounts_cmd E O) (accounts_cmd E' O) /\ alike (balance_cmd E O) (balance_cmd E' O) /\ alike (payees_cmd E O) (payees_cmd E' O) /\
  alike (print_cmd E O) (print_cmd E' O) /\ alike (stats_cmd E O) (stats_cmd E' O).

Definition events_of (us : list used) : list event := map (fun u => ETxn (u_txn u) (u_path u)) us.
Lemma deliver_txns : forall D (h : D -> transaction -> str -> D * status) evs n s,
  deliver_all (Some h) None s evs = deliver_all (Some h) None s (events_of (txns n evs)).
Proof.
  intros D h evs. induction evs as [|[t p|pt p] evs IH]; intros n s; cbn [txns events_of map deliver_all deliver u_txn u_path]; [reflexivity| |exact (IH n s)].
  destruct (h s t p) as [s' r]. destruct r; try reflexivity. apply IH.
Qed.

(** balance keeps the budget entries in its journal; nothing that is printed
    depends on them. *)
Definition near (s s' : hstate journal) : Prop := h_n s' = h_n s /\ h_out s' = h_out s /\ j_root (h_data s') = j_root (h_data s).
Lemma postings_near : forall ps j j', j_root j' = j_root j ->
  let '(j1, out, r) := j_addPostings j ps in let '(j1', out', r') := j_addPostings j' ps in j_root j1' = j_root j1 /\ out' = out /\ r' = r.
Proof.
  induction ps as [|p ps IH]; intros j j' R; cbn [j_addPostings]; [auto|]. unfold j_addPosting. rewrite R.
  destruct (wireUpPosting (j_root j) p) as [[a out]|]; [|auto].
  specialize (IH (Jrn (j_txns j) (j_ptxns j) (j_paths j) a) (Jrn (j_txns j') (j_ptxns j') (j_paths j') a) eq_refl).
  destruct (j_addPostings (Jrn (j_txns j) _ _ _) ps) as [[j1 o] r], (j_addPostings (Jrn (j_txns j') _ _ _) ps) as [[j1' o'] r']. destruct IH as (A & -> & ->). auto.
Qed.
Lemma balance_near : forall E O fs evs n s s', Forall month_event evs -> near s s' ->
  let '(s1, r) := deliver_all (Some (checked E O fs balance_handler)) (Some balance_ph) s evs in
  let '(s1', r') := deliver_all (Some (checked E O fs balance_handler)) (Some balance_ph) s' (events_of (txns n evs)) in near s1 s1' /\ r' = r.
Proof.
  intros E O fs evs. induction evs as [|[t p|pt p] evs IH]; intros n s s' M N; inversion_clear M as [|? ? Mp M'];
    cbn [txns events_of map deliver_all deliver u_txn u_path]; [auto| |].
  - fold (events_of (txns (S n) evs)).
    assert (K : let '(s1, r) := checked E O fs balance_handler s t p in let '(s1', r') := checked E O fs balance_handler s' t p in near s1 s1' /\ r' = r).
    { destruct N as (N1 & N2 & N3). unfold checked. rewrite N1, N2. destruct (checkAgainstFilters E O fs (h_n s) t) as [[m ps]| |]; [|repeat split; assumption..].
      destruct (negb m && is_nil ps); [repeat split; assumption|]. unfold balance_handler. cbn [h_data h_n h_out].
      pose proof (postings_near ps (j_addTransaction (h_data s) t p) (j_addTransaction (h_data s') t p) N3) as K.
      destruct (j_addPostings (j_addTransaction (h_data s) t p) ps) as [[j1 o] r], (j_addPostings (j_addTransaction (h_data s') t p) ps) as [[j1' o'] r'].
      destruct K as (A & -> & ->). repeat split; assumption. }
    destruct (checked E O fs balance_handler s t p) as [s1 r], (checked E O fs balance_handler s' t p) as [s1' r']. destruct K as [N' ->].
    destruct r; [apply IH; assumption|auto..].
  - destruct (balance_ph s pt p) as [s1 r] eqn:Ph. apply balance_ph_root in Ph as (-> & Rt & Hn & Ho). specialize (Ho Mp).
    apply IH; [exact M'|]. destruct N as (N1 & N2 & N3). repeat split; congruence.
Qed.
Lemma near_trans : forall a b c, near a b -> near b c -> near a c.
Proof. intros a b c (A & B & C) (A' & B' & C'). repeat split; congruence. Qed.
Lemma near_sym : forall a b, near a b -> near b a.
Proof. intros a b (A & B & C). repeat split; congruence. Qed.

Section Files.
Variable E : env.
Variable O : opts.
Variable files : str -> option file.
Variable depth : nat.
Let E' := with_files E files depth.
Hypothesis Same : txns 0 (fst (stream E' O)) = txns 0 (fst (stream E O)).
Hypothesis End : snd (stream E' O) = snd (stream E O).

Lemma parse_unseen : forall D (h : D -> transaction -> str -> D * status) s,
  fst (parse_cmd E' O (Some h) None s) = fst (parse_cmd E O (Some h) None s) /\
  strip_st (snd (parse_cmd E' O (Some h) None s)) = strip_st (snd (parse_cmd E O (Some h) None s)).
Proof.
  intros D h s. pose proof (parse_cmd_fold E O D (Some h) None s) as A. pose proof (parse_cmd_fold E' O D (Some h) None s) as A'.
  destruct (stream E O) as [evs r]. destruct (stream E' O) as [evs' r']. cbn [fst snd] in Same, End. subst r'.
  rewrite (deliver_txns _ _ evs 0) in A. rewrite (deliver_txns _ _ evs' 0), Same in A'. destruct (deliver_all _ _ _ _) as [s' q]. destruct A as [A1 A2], A' as [B1 B2].
  split; [congruence|]. destruct q; congruence.
Qed.

Lemma finish_alike : forall D (r r' : hstate D * status) k, fst r' = fst r -> strip_st (snd r') = strip_st (snd r) -> alike (finish r k) (finish r' k).
Proof.
  intros D [s q] [s' q'] k S Q. cbn [fst snd] in *. subst s'.
  destruct q, q'; try discriminate Q; unfold finish; try (split; [reflexivity|exact Q]).
  destruct (k (h_n s) (h_data s)). split; reflexivity.
Qed.
Lemma filters_alike : forall k k', (forall fs, alike (k fs) (k' fs)) -> alike (with_filters E O k) (with_filters E' O k').
Proof.
  intros k k' H. unfold with_filters. change (makeFilters E' (o_args O)) with (makeFilters E (o_args O)).
  destruct (makeFilters E (o_args O)); [apply H|split; reflexivity|split; reflexivity].
Qed.

Lemma balance_unseen : forall fs, near (fst (balance_run E O fs)) (fst (balance_run E' O fs)) /\ strip_st (snd (balance_run E' O fs)) = strip_st (snd (balance_run E O fs)).
Proof.
  intro fs. unfold balance_run. set (s0 := HS 0 [] newJournal). change (checked E' O fs balance_handler) with (checked E O fs balance_handler).
  pose proof (parse_cmd_fold E O _ (Some (checked E O fs balance_handler)) (Some balance_ph) s0) as A.
  pose proof (parse_cmd_fold E' O _ (Some (checked E O fs balance_handler)) (Some balance_ph) s0) as A'.
  assert (N0 : near s0 s0) by (repeat split).
  pose proof (balance_near E O fs _ 0 s0 s0 (stream_months E O) N0) as K. pose proof (balance_near E O fs _ 0 s0 s0 (stream_months E' O) N0) as K'.
  rewrite Same in K'. destruct (stream E O) as [evs r]. destruct (stream E' O) as [evs' r']. cbn [fst snd] in *. subst r'.
  destruct (deliver_all _ _ s0 (events_of (txns 0 evs))) as [s2 q2]. destruct (deliver_all _ _ s0 evs) as [s q], (deliver_all _ _ s0 evs') as [s' q'].
  destruct K as [K1 <-], K' as [K1' ->], A as [-> A], A' as [-> A']. split; [exact (near_trans _ _ _ K1 (near_sym _ _ K1'))|].
  destruct q'; congruence.
Qed.

(** When the files hold the same transactions in the same order, budget entries
    or not, and reading them ends alike, every command but budget does the same. *)
Theorem C127_unseen : commands_alike E E' O.
Proof.
  unfold commands_alike. split; [|split; [|split; [|split]]]; apply filters_alike; intro fs; [| |apply finish_alike; unfold payees_run..].
  - apply finish_alike; unfold accounts_run; apply parse_unseen.
  - destruct (balance_unseen fs) as [(N1 & N2 & N3) St]. destruct (balance_run E O fs) as [s q], (balance_run E' O fs) as [s' q']. cbn [fst snd] in *.
    unfold finish. change (prepareBalance E') with (prepareBalance E). rewrite N3, N2. destruct q, q'; try discriminate St; split; auto.
  - apply parse_unseen.
  - apply parse_unseen.
  - unfold print_run; apply parse_unseen.
  - unfold print_run; apply parse_unseen.
  - unfold stats_run; apply parse_unseen.
  - unfold stats_run; apply parse_unseen.
Qed.
End Files.

(** A journal written in the usual way, and one in which the same transactions are
    written without the budget entries. *)
Definition is_txn (w : writing) : bool := match w with WTxn _ => true | WBudget _ => false end.
Theorem C127_struck : forall E O path ls ls' written es, journal_path E O = Some path ->
  e_fs E path = Some (File (text_of ls) false) -> book_written (e_unicode E) ls written -> Forall JournalText.readable ls -> Forall2 means written es ->
  book_written (e_unicode E) ls' (filter is_txn written) -> Forall JournalText.readable ls' ->
  commands_alike E (holding E path (text_of ls')) O.
Proof.
  intros E O path ls ls' written es J H B R M B' R'.
  change (holding E path (text_of ls')) with (with_files E (fun q => if str_eqb q path then Some (File (text_of ls') false) else e_fs E q) (e_depth E)).
  assert (S : stream E O = (map (from path) es, SOk)) by (unfold stream; rewrite J, H; now apply (C103_read _ _ _ _ _ written)).
  assert (S' : exists es', stream (with_files E (fun q => if str_eqb q path then Some (File (text_of ls') false) else e_fs E q) (e_depth E)) O = (map (from path) es', SOk) /\
    forall n, txns n (map (from path) es') = txns n (map (from path) es)).
  { assert (X : exists es', Forall2 means (filter is_txn written) es' /\ forall n, txns n (map (from path) es') = txns n (map (from path) es)).
    { clear - M. induction M as [|w e written es M F (es' & F' & T)]; [exists []; split; [constructor|reflexivity]|].
      destruct M as [t t' St|a pt Bu]; cbn [filter is_txn].
      - exists (TxnEntry t' :: es'). split; [constructor; [now constructor|exact F']|]. intro n. cbn [map from txns]. now rewrite T.
      - exists es'. split; [exact F'|]. intro n. cbn [map from txns]. apply T. }
    destruct X as (es' & F' & T). exists es'. split; [|exact T]. unfold stream.
    change (journal_path (with_files E _ _) O) with (journal_path E O). rewrite J. cbn [with_files e_fs e_unicode e_depth]. rewrite str_eqb_refl.
    now apply (C103_read _ _ _ _ _ (filter is_txn written)). }
  destruct S' as (es' & S' & T). apply C127_unseen; rewrite S, S'; [apply T|reflexivity].
Qed.

(** A journal to which budget entries are appended. *)
Theorem C127_appended : forall E O p a b, journal_path E O = Some p -> line_start a -> snd (stream (holding E p a) O) = SOk ->
  snd (stream (holding E p b) O) = SOk -> txns 0 (fst (stream (holding E p b) O)) = [] ->
  commands_alike (holding E p a) (holding E p (a ++ LF :: b)) O.
Proof.
  intros E O p a b J St Ok1 Ok2 N.
  destruct (joined_stream E O p a b J St) as [A B]. assert (Ok : snd (stream (holding E p (a ++ LF :: b)) O) = SOk) by (apply A; auto). specialize (B Ok).
  pose (files := fun q => if str_eqb q p then Some (File (a ++ LF :: b) false) else e_fs E q).
  change (holding E p (a ++ LF :: b)) with (with_files (holding E p a) files (e_depth E)) in *.
  apply C127_unseen; [|congruence]. rewrite B. destruct (txns_app (fst (stream (holding E p a) O)) (fst (stream (holding E p b) O)) 0) as (m & ->).
  assert (X : forall evs, txns 0 evs = [] -> forall k, txns k evs = []).
  { clear. induction evs as [|[t q|pt q] evs IH]; intros H k; [reflexivity|discriminate|]. cbn in *. auto. }
  rewrite (X _ N). apply app_nil_r.
Qed.

(** The journal of [C103_example] and the same without its budget entry; and the
    other way round, the entry appended. *)
Example C127_example : let E := env0 [(lit "j", text_of book_lines)] in let O := opts0 "j" in
  let written := [WBudget plan; WTxn cafe_txn] in let es := [PerEntry plan_filled; TxnEntry cafe_txn] in
  journal_path E O = Some (lit "j") /\ e_fs E (lit "j") = Some (File (text_of book_lines) false) /\
  book_written U0 book_lines written /\ Forall JournalText.readable book_lines /\ Forall2 means written es /\
  book_written U0 cafe_lines (filter is_txn written) /\ Forall JournalText.readable cafe_lines /\
  length (r_out (balance_cmd E O)) = 3%nat /\ balance_cmd (holding E (lit "j") (text_of cafe_lines)) O = balance_cmd E O /\
  budget_cmd (holding E (lit "j") (text_of cafe_lines)) O <> budget_cmd E O.
Proof.
  cbv zeta. destruct C103_example as (B & R & M & J & H & _). split; [exact J|]. split; [exact H|]. split; [exact B|]. split; [exact R|]. split; [exact M|].
  split; [exact (journal_book _ _ _ cafe_written)|]. split; [|split; [vm_compute; reflexivity|split; [vm_compute; reflexivity|vm_compute; discriminate]]].
  unfold book_lines in R. apply Forall_app in R as [_ R]. now inversion_clear R.
Qed.
Example C127_appended_example : let E := env1 [] in let O := opts0 "j" in let at_ x := holding E (lit "j") x in
  journal_path E O = Some (lit "j") /\ line_start text_same /\ snd (stream (at_ text_same) O) = SOk /\
  snd (stream (at_ (text_of plan_lines)) O) = SOk /\ txns 0 (fst (stream (at_ (text_of plan_lines)) O)) = [] /\ length (fst (stream (at_ (text_of plan_lines)) O)) = 1%nat.
Proof.
  cbv zeta. split; [reflexivity|]. split; [right; eexists; unfold text_same; rewrite !app_assoc; reflexivity|]. repeat split; vm_compute; reflexivity.
Qed.
