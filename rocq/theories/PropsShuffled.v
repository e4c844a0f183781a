(** * The order of the postings of an entry: C123 *)
From Verif Require Import Base BaseFacts Utf8 Unicode GoTime Strconv Display Journal JournalFacts Lexer Parser ParserFacts Account Reporting Budget Cmd Spec TextSpec JournalText DateFacts CalendarFacts
  TreeSpec ReportSpec CmdSpec StreamFacts CmdFacts FlatSpec BookText WholeFacts Sample PropsCmd PropsBalance PropsPrint PropsStats AgeFacts BankFacts PropsAge PropsReread PropsAgain BudgetSpec BudgetFacts PropsBudget
  PropsText PropsParser PropsInput PropsPanic PropsMain PropsWhole PropsConcat PropsJoin PropsJoinMore PropsOrder PropsMonths PropsPrinted PropsStatistics PropsBook.
From Verif Require MistakeFacts TreeFacts PropsFigures PropsArgs.

(** The same transaction but for the order of its postings. *)
Record shuffled (t t' : transaction) : Prop := Shuffled {
  sh_date : t_date t' = t_date t;
  sh_state : t_state t' = t_state t;
  sh_payee : t_payee t' = t_payee t;
  sh_header : t_headernote t' = t_headernote t;
  sh_notes : t_notes t' = t_notes t;
  sh_postings : Permutation (t_postings t) (t_postings t') }.

(** Likewise as written. *)
Inductive shuffled_writing : writing -> writing -> Prop :=
| ShuffledTxn : forall t t', shuffled t t' -> t_elided t' = t_elided t -> shuffled_writing (WTxn t) (WTxn t')
| ShuffledBudget : forall y m ps ps', Permutation ps ps' -> shuffled_writing (WBudget (Assignment y m ps)) (WBudget (Assignment y m ps')).

(** All amounts of a transaction are given, or those given are in one commodity;
    those of a budget entry are in one commodity. *)
Definition one_way (w : writing) : Prop :=
  match w with
  | WTxn t => Forall priced (t_postings t) \/ exists c, uniform c (t_postings t)
  | WBudget a => exists c, uniform c (as_postings a)
  end.

(** Likewise as read. *)
Inductive shuffled_entry : FlatSpec.entry -> FlatSpec.entry -> Prop :=
| ShuffledTxnEntry : forall t t', shuffled t t' -> shuffled_entry (TxnEntry t) (TxnEntry t')
| ShuffledPerEntry : forall pt pt', pt_period pt' = pt_period pt -> Permutation (t_postings (pt_txn pt)) (t_postings (pt_txn pt')) ->
    shuffled_entry (PerEntry pt) (PerEntry pt').

(** ** From what is written to what is read *)
Lemma named_uniform : forall c ps, uniform c ps -> Forall (fun x => x = c) (named_commodities ps).
Proof.
  intros c ps U. apply Forall_forall. intros x I. unfold named_commodities in I. apply filter_In in I as [I N]. apply in_map_iff in I as (p & <- & I).
  unfold uniform in U. rewrite Forall_forall in U. apply U; [exact I|]. intro X. unfold commodity_of in N. rewrite X in N. discriminate.
Qed.
Lemma last_perm : forall c ps ps', uniform c ps -> Permutation ps ps' -> last_commodity ps' = last_commodity ps.
Proof.
  intros c ps ps' U P. assert (U' : uniform c ps') by (eapply Permutation_Forall; eauto). unfold last_commodity.
  rewrite (last_const c) by now apply named_uniform. rewrite (last_const c) by now apply named_uniform.
  assert (Q : Permutation (named_commodities ps) (named_commodities ps')).
  { unfold named_commodities. assert (X : Permutation (map commodity_of ps) (map commodity_of ps')) by now apply Permutation_map.
    revert X. generalize (map commodity_of ps), (map commodity_of ps'). intros l l' X.
    induction X as [|x l l' X IH|x y l|]; cbn; [constructor|destruct x; auto|destruct x, y; auto; apply perm_swap|etransitivity; eauto]. }
  destruct (named_commodities ps), (named_commodities ps'); auto; [apply Permutation_nil in Q|apply Permutation_sym, Permutation_nil in Q]; discriminate.
Qed.
Lemma total_same : forall ps ps', Permutation ps ps' -> total ps' = total ps.
Proof. intros ps ps' P. symmetry. now apply TreeFacts.total_perm. Qed.
Lemma missing_perm : forall c ps ps', uniform c ps -> Permutation ps ps' -> missing ps' = missing ps.
Proof. intros c ps ps' U P. unfold missing. now rewrite (total_same _ _ P), (last_perm c _ _ U P). Qed.
Lemma uniform_around : forall c before q after, uniform c (before ++ q :: after) -> uniform c (before ++ after).
Proof. intros c before q after U. apply Forall_app in U as [A B]. inversion B; subst. apply Forall_app. auto. Qed.

Lemma means_shuffled : forall w e w', means w e -> shuffled_writing w w' -> one_way w -> exists e', means w' e' /\ shuffled_entry e e'.
Proof.
  intros w e w' M S O. destruct S as [t t' S El|y m ps ps' P].
  - inversion M as [? ? St|]; subst. destruct St as [t (A & B & C)|d s payee before cs a after note notes Ne Nz].
    + exists (TxnEntry t'). split; [|now constructor]. constructor. constructor. destruct S as [_ _ _ _ _ P]. split; [congruence|].
      split; [eapply Permutation_Forall; eauto|]. now rewrite (total_same _ _ P).
    + destruct O as [Pr|[c U]].
      { cbn in Pr. apply Forall_app in Pr as [_ Pr]. inversion Pr as [|? ? X]. now contradiction X. }
      destruct t' as [d' s' payee' ps' el' note' notes']. destruct S as [S1 S2 S3 S4 S5 P]. cbn in S1, S2, S3, S4, S5, El, P, U. subst.
      assert (I : In (Posting cs a None) ps') by (eapply Permutation_in; [exact P|apply in_elt]).
      apply in_split in I as (before' & after' & ->). apply Permutation_app_inv in P. apply uniform_around in U.
      eexists. split; [constructor; apply OneLeft|].
      * eapply Permutation_Forall; eauto.
      * now rewrite (total_same _ _ P).
      * rewrite (total_same _ _ P), (last_perm c _ _ U P). constructor. split; try reflexivity. cbn [t_postings].
        rewrite <- !Permutation_middle. now constructor.
  - inversion M as [|? pt B]; subst. destruct O as [c U]. cbn in U. inversion B as [? ? ? Ne|? ? before cs a after Ne]; subst.
    + exists (PerEntry (made_up y m ps' [] (lit "_budget_root_") [])). split.
      * constructor. constructor. eapply Permutation_Forall; eauto.
      * constructor; [reflexivity|]. unfold made_up. cbn [pt_txn t_postings]. rewrite !app_nil_r. rewrite (missing_perm c _ _ U P). now apply Permutation_app_tail.
    + assert (I : In (Posting cs a None) ps') by (eapply Permutation_in; [exact P|apply in_elt]).
      apply in_split in I as (before' & after' & ->). apply Permutation_app_inv in P. apply uniform_around in U.
      exists (PerEntry (made_up y m before' cs a after')). split.
      * constructor. constructor. eapply Permutation_Forall; eauto.
      * constructor; [reflexivity|]. unfold made_up. cbn [pt_txn t_postings]. rewrite (missing_perm c _ _ U P). rewrite <- !Permutation_middle. now constructor.
Qed.

(** ** From what is read to what is selected *)
Inductive shuffled_event : event -> event -> Prop :=
| ShuffledTxnEvent : forall t t' p, shuffled t t' -> shuffled_event (ETxn t p) (ETxn t' p)
| ShuffledPerEvent : forall pt pt' p, pt_period pt' = pt_period pt -> Permutation (t_postings (pt_txn pt)) (t_postings (pt_txn pt')) ->
    shuffled_event (EPer pt p) (EPer pt' p).
Lemma from_shuffled : forall p es es', Forall2 shuffled_entry es es' -> Forall2 shuffled_event (map (from p) es) (map (from p) es').
Proof. intros p es es' F. induction F as [|e e' es es' S F IH]; [constructor|]. cbn [map]. constructor; [|exact IH]. destruct S; now constructor. Qed.

Definition shuffled_used (u u' : used) : Prop := u_n u' = u_n u /\ u_path u' = u_path u /\ shuffled (u_txn u) (u_txn u').
Lemma txns_shuffled : forall evs evs', Forall2 shuffled_event evs evs' -> forall n, Forall2 shuffled_used (txns n evs) (txns n evs').
Proof.
  intros evs evs' F. induction F as [|e e' evs evs' S F IH]; intro n; [constructor|]. destruct S; cbn [txns]; [|apply IH].
  constructor; [split; [reflexivity|split; [reflexivity|assumption]]|apply IH].
Qed.

Section Selected.
Variable E : env.
Variable O : opts.
Variable fs : list filter_.

Lemma whole_shuffled : forall t t', shuffled t t' -> whole_hit E fs t' = whole_hit E fs t.
Proof. intros t t' [A B C D F P]. unfold whole_hit. now rewrite C, D, F. Qed.
Lemma filter_shuffled : forall f (l l' : list posting), Permutation l l' -> Permutation (filter f l) (filter f l').
Proof. intros f l l' P. induction P; cbn; [constructor|destruct (f x); auto|destruct (f x), (f y); auto; apply perm_swap|etransitivity; eauto]. Qed.
Lemma hits_shuffled : forall t t', shuffled t t' -> Permutation (hits E fs t) (hits E fs t').
Proof.
  intros t t' S. unfold hits. rewrite (whole_shuffled t t' S). destruct fs; [apply S|]. destruct (whole_hit E _ t); [apply S|]. apply filter_shuffled, S.
Qed.
Lemma hit_shuffled : forall t t', shuffled t t' -> hit E fs t' = hit E fs t.
Proof.
  intros t t' S. unfold hit. rewrite (whole_shuffled t t' S). destruct fs; [reflexivity|]. f_equal. apply PropsArgs.existsb_set. intro x.
  split; apply Permutation_in; [symmetry|]; apply S.
Qed.

Definition shuffled_pick (a b : used * list posting) : Prop := shuffled_used (fst a) (fst b) /\ Permutation (snd a) (snd b).
Lemma whole_hits : forall t, fs = [] \/ whole_hit E fs t = true -> hits E fs t = t_postings t.
Proof. intros t [Q|Q]; unfold hits; [now rewrite Q|rewrite Q; now destruct fs]. Qed.
Lemma picks_shuffled : forall us sel, picks E O fs us sel -> forall us', Forall2 shuffled_used us us' ->
  exists sel', picks E O fs us' sel' /\ Forall2 shuffled_pick sel sel'.
Proof.
  intros us sel H. induction H as [|u us sel No _ IH|u us sel ps W Ht P Wh _ IH]; intros us' F; inversion F as [|? u' ? us1 (N & Pa & S) F']; subst.
  - exists []. split; constructor.
  - destruct (IH _ F') as (s & K & Q). exists s. split; [|exact Q]. apply PickNot; [|exact K]. now rewrite N, (sh_date _ _ S), (hit_shuffled _ _ S).
  - destruct (IH _ F') as (s & K & Q). exists ((u', hits E fs (u_txn u')) :: s). split.
    + apply PickIt; auto; [now rewrite N, (sh_date _ _ S)|now rewrite (hit_shuffled _ _ S)|]. intro X. now apply whole_hits.
    + constructor; [|exact Q]. split; [split; [exact N|split; [exact Pa|exact S]]|]. cbn [snd]. rewrite P. now apply hits_shuffled.
Qed.
Lemma range_shuffled : forall us sel, in_range E O us sel -> forall us', Forall2 shuffled_used us us' ->
  exists sel', in_range E O us' sel' /\ Forall2 shuffled_used sel sel'.
Proof.
  intros us sel H. induction H as [|u us sel No _ IH|u us sel W _ IH]; intros us' F; inversion F as [|? u' ? us1 (N & Pa & S) F']; subst.
  - exists []. split; constructor.
  - destruct (IH _ F') as (s & K & Q). exists s. split; [|exact Q]. apply RangeOut; [|exact K]. now rewrite N, (sh_date _ _ S).
  - destruct (IH _ F') as (s & K & Q). exists (u' :: s). split; [apply RangeIn; auto; now rewrite N, (sh_date _ _ S)|]. constructor; [|exact Q].
    split; [exact N|split; [exact Pa|exact S]].
Qed.
Lemma activity_shuffled : forall t t' ps, t_date t' = t_date t -> activity t' ps = activity t ps.
Proof. intros t t' ps D. unfold activity. now rewrite D. Qed.
Lemma history_shuffled : forall n evs log, history E O fs n evs log -> forall evs', Forall2 shuffled_event evs evs' ->
  exists log', history E O fs n evs' log' /\ Permutation log log'.
Proof.
  intros n evs log H. induction H as [n|n pt p evs log _ IH|n t p evs log No _ IH|n t p ps evs log W Ht P Wh _ IH]; intros evs' F;
    inversion F as [|? e' ? evs1 Se F']; subst; [exists []; split; constructor|..]; destruct (IH _ F') as (l & K & Q); inversion Se as [? t' ? S|? pt' ? Pe Pp]; subst.
  - exists (allocations pt' ++ l). split; [now constructor|]. apply Permutation_app; [|exact Q]. unfold allocations. rewrite Pe. now apply Permutation_map.
  - exists l. split; [|exact Q]. apply HistNot; [|exact K]. now rewrite (sh_date _ _ S), (hit_shuffled _ _ S).
  - exists (activity t' (hits E fs t') ++ l). split.
    + apply HistTxn; auto; [now rewrite (sh_date _ _ S)|now rewrite (hit_shuffled _ _ S)|]. intro X. now apply whole_hits.
    + apply Permutation_app; [|exact Q]. rewrite (activity_shuffled t t' _ (sh_date _ _ S)). apply activity_perm. rewrite P. now apply hits_shuffled.
Qed.
End Selected.

Lemma taken_shuffled : forall s s', Forall2 shuffled_pick s s' -> Permutation (taken s) (taken s').
Proof. intros s s' F. unfold taken. induction F as [|a b s s' [_ P] F IH]; [constructor|]. cbn [flat_map]. now apply Permutation_app. Qed.
Lemma selected_shuffled : forall s s', Forall2 shuffled_pick s s' -> Forall2 shuffled (selected s) (selected s').
Proof. intros s s' F. unfold selected. induction F as [|a b s s' [(_ & _ & S) _] F IH]; [constructor|]. cbn [map]. now constructor. Qed.
Lemma dates_shuffled : forall l l', Forall2 shuffled l l' -> map t_date l' = map t_date l /\ map t_payee l' = map t_payee l.
Proof. intros l l' F. induction F as [|t t' l l' S F [A B]]; [auto|]. cbn [map]. rewrite A, B. now rewrite (sh_date _ _ S), (sh_payee _ _ S). Qed.
Lemma figures_shuffled : forall s s', Forall2 shuffled_pick s s' -> same_figures s s'.
Proof.
  intros s s' F. pose proof (taken_shuffled _ _ F) as T. destruct (dates_shuffled _ _ (selected_shuffled _ _ F)) as [D Y].
  assert (Ps : forall root d, Permutation (posted_on root s d) (posted_on root s' d)).
  { intros root d. unfold posted_on. clear T D Y. induction F as [|[u ps] [u' ps'] s s' [(_ & _ & S) P] F IH]; [constructor|]. cbn [flat_map]. cbn in S, P.
    rewrite (sh_date _ _ S). apply Permutation_app; [|exact IH]. destruct (date_eqb _ d); [|constructor]. now apply posted_perm. }
  split.
  - symmetry. clear - F. induction F; cbn; congruence.
  - intro a. rewrite !used_accounts_taken. split; intros (q & I & Q); exists q; (split; [|exact Q]); eapply Permutation_in; try exact I; [now symmetry|exact T].
  - intro a. rewrite !used_payees_selected.
    assert (X : forall l, (exists t, In t l /\ t_payee t = a) <-> In a (map t_payee l)).
    { intro l. rewrite in_map_iff. split; intros (t & A & B); exists t; auto. }
    rewrite !X. now rewrite Y.
  - intro d. unfold earliest. now rewrite D.
  - intro d. unfold latest. now rewrite D.
  - apply days_perm. apply Ps.
  - apply days_perm. apply Ps.
Qed.

(** ** C123 *)
Section Shuffled.
Variable E : env.
Variable O : opts.
Variable p : str.
Hypothesis Path : journal_path E O = Some p.

(** A journal as written, and one with the postings of its entries in another order. *)
Variables ls ls' : list str.
Variables written written' : list writing.
Variable es : list FlatSpec.entry.
Hypothesis Written : book_written (e_unicode E) ls written.
Hypothesis Written' : book_written (e_unicode E) ls' written'.
Hypothesis Lines : Forall JournalText.readable ls.
Hypothesis Lines' : Forall JournalText.readable ls'.
Hypothesis Means : Forall2 means written es.
Hypothesis Reordered : Forall2 shuffled_writing written written'.
Hypothesis OneWay : Forall one_way written.
Let E1 := holding E p (text_of ls).
Let E2 := holding E p (text_of ls').

(** The entries read are the same but for the order of their postings ... *)
Theorem C123_read : exists es', Forall2 means written' es' /\ Forall2 shuffled_entry es es' /\
  stream E1 O = (map (from p) es, SOk) /\ stream E2 O = (map (from p) es', SOk).
Proof.
  assert (X : exists es', Forall2 means written' es' /\ Forall2 shuffled_entry es es').
  { clear - Means Reordered OneWay. revert written' Reordered. induction Means as [|w e ws es M F IH]; intros ws' R; inversion R as [|? w' ? ws1 S R']; subst.
    - exists []. split; constructor.
    - inversion OneWay as [|? ? O1 O2]; subst. destruct (IH F O2 _ R') as (es' & A & B). destruct (means_shuffled _ _ _ M S O1) as (e' & C & D).
      exists (e' :: es'). split; constructor; assumption. }
  destruct X as (es' & M' & S). exists es'. split; [exact M'|]. split; [exact S|]. unfold E1, E2. rewrite !(holding_stream E O p Path).
  split; [now apply C103_read with (written := written)|now apply C103_read with (written := written')].
Qed.

Lemma streams_shuffled : snd (stream E1 O) = SOk /\ snd (stream E2 O) = SOk /\ Forall2 shuffled_event (fst (stream E1 O)) (fst (stream E2 O)).
Proof. destruct C123_read as (es' & _ & S & -> & ->). cbn [fst snd]. split; [reflexivity|]. split; [reflexivity|]. now apply from_shuffled. Qed.
Lemma readable_shuffled : CmdSpec.readable E1 O <-> CmdSpec.readable E2 O.
Proof.
  destruct streams_shuffled as (A & B & F). apply (fun H => txns_shuffled _ _ H 0%nat) in F. unfold CmdSpec.readable. rewrite A, B.
  assert (X : Forall (fun u => good_flags E1 O (u_n u)) (txns 0 (fst (stream E1 O))) <-> Forall (fun u => good_flags E2 O (u_n u)) (txns 0 (fst (stream E2 O)))).
  { induction F as [|u u' us us' (N & _) F IH]; [split; constructor|]. split; intro H; inversion H as [|? ? G H']; subst; (constructor; [|now apply IH]);
      [rewrite N; exact G|rewrite N in G; exact G]. }
  rewrite X. tauto.
Qed.

Hypothesis Clock : sane_clock E.
Hypothesis Orders : orders E.
Variable fs : list filter_.
Hypothesis Filters : filters_for E (o_args O) fs.

Lemma both_picks : forall s1 s2, picks E1 O fs (txns 0 (fst (stream E1 O))) s1 -> picks E2 O fs (txns 0 (fst (stream E2 O))) s2 ->
  exists s, Forall2 shuffled_pick s1 s /\ Forall2 (fun a b => fst a = fst b /\ Permutation (snd a) (snd b)) s s2.
Proof.
  intros s1 s2 P1 P2. apply picks_holding in P1, P2. destruct streams_shuffled as (_ & _ & F).
  destruct (picks_shuffled E O fs _ _ P1 _ (txns_shuffled _ _ F 0%nat)) as (s & K & Q). exists s. split; [exact Q|]. exact (picks_same _ _ _ _ _ _ K P2).
Qed.
Lemma picks_both : forall s1 s2, picks E1 O fs (txns 0 (fst (stream E1 O))) s1 -> picks E2 O fs (txns 0 (fst (stream E2 O))) s2 -> Forall2 shuffled_pick s1 s2.
Proof.
  intros s1 s2 P1 P2. destruct (both_picks s1 s2 P1 P2) as (s & A & B). clear P1 P2. revert s2 B. induction A as [|a b s1 s [S P] A IH]; intros s2 B; inversion B as [|? c ? s3 [Q1 Q2] B']; subst.
  - constructor.
  - constructor; [|now apply IH]. split; [now rewrite <- Q1|]. now rewrite P.
Qed.

(** ... print prints the same transactions but for the order of their postings ... *)
Theorem C123_print : sorts E -> (r_status (print_cmd E1 O) = SOk <-> r_status (print_cmd E2 O) = SOk) /\
  (r_status (print_cmd E1 O) = SOk -> exists ts ts' ts2, Forall2 shuffled ts ts' /\ Permutation ts' ts2 /\ date_ordered ts /\ date_ordered ts2 /\
     print_cmd E1 O = Outcome (lines (map transaction_string ts)) SOk /\ print_cmd E2 O = Outcome (lines (map transaction_string ts2)) SOk).
Proof.
  intro So.
  destruct (C42_print E1 O fs Clock Orders So (holding_filters E O p fs Filters _)) as [K1 N1].
  destruct (C42_print E2 O fs Clock Orders So (holding_filters E O p fs Filters _)) as [K2 N2].
  assert (I : r_status (print_cmd E1 O) = SOk <-> CmdSpec.readable E1 O).
  { split; [|intro R; destruct (K1 R) as (? & ? & _ & _ & _ & ->); reflexivity].
    intro H. destruct (readable_dec E1 O fs Clock Orders) as [R|R]; [exact R|]. destruct (N1 R). contradiction. }
  assert (I2 : r_status (print_cmd E2 O) = SOk <-> CmdSpec.readable E2 O).
  { split; [|intro R; destruct (K2 R) as (? & ? & _ & _ & _ & ->); reflexivity].
    intro H. destruct (readable_dec E2 O fs Clock Orders) as [R|R]; [exact R|]. destruct (N2 R). contradiction. }
  split; [rewrite I, I2; exact readable_shuffled|]. intro H. apply I in H. destruct (K1 H) as (s1 & t1 & P1 & M1 & D1 & Q1).
  destruct (K2 (proj1 readable_shuffled H)) as (s2 & t2 & P2 & M2 & D2 & Q2).
  destruct (Permutation_Forall2 (Permutation_sym M1) (selected_shuffled _ _ (picks_both s1 s2 P1 P2))) as (ts' & X & Y).
  exists t1, ts', t2. split; [exact Y|]. split; [now rewrite <- X, M2|]. auto.
Qed.

(** ... accounts and payees list the same names ... *)
Theorem C123_listings : Forall (fun x => e_re_ok E (case_text E x) = true) (o_args O) ->
  forall cmd, cmd = accounts_cmd \/ cmd = payees_cmd ->
  (r_status (cmd E1 O) = SOk <-> r_status (cmd E2 O) = SOk) /\ (r_status (cmd E1 O) = SOk -> cmd E1 O = cmd E2 O).
Proof.
  intros A cmd Hc.
  assert (Rg : forall s1 s2, in_range E1 O (txns 0 (fst (stream E1 O))) s1 -> in_range E2 O (txns 0 (fst (stream E2 O))) s2 -> Forall2 shuffled_used s1 s2).
  { intros s1 s2 P1 P2. apply range_holding in P1, P2. destruct streams_shuffled as (_ & _ & F).
    destruct (range_shuffled E O _ _ P1 _ (txns_shuffled _ _ F 0%nat)) as (s & K & Q). now rewrite (range_fun _ _ _ _ _ P2 K). }
  assert (Us : forall s1 s2, Forall2 shuffled_used s1 s2 -> forall a, (uses s1 a <-> uses s2 a) /\ (pays s1 a <-> pays s2 a)).
  { intros s1 s2 F a. unfold uses, pays. induction F as [|u u' s1 s2 (N & _ & S) F [IH1 IH2]].
    - split; split; [intros (? & ? & [] & _)|intros (? & ? & [] & _)|intros (? & [] & _)|intros (? & [] & _)].
    - split; split.
      + intros (v & q & [<-|I] & J & Q); [exists u', q; split; [now left|]; split; [eapply Permutation_in; [apply S|exact J]|exact Q]|].
        destruct (proj1 IH1) as (v' & q' & I' & X); [eauto|]. exists v', q'. split; [now right|exact X].
      + intros (v & q & [<-|I] & J & Q); [exists u, q; split; [now left|]; split; [eapply Permutation_in; [symmetry; apply S|exact J]|exact Q]|].
        destruct (proj2 IH1) as (v' & q' & I' & X); [eauto|]. exists v', q'. split; [now right|exact X].
      + intros (v & [<-|I] & Q); [exists u'; split; [now left|]; now rewrite (sh_payee _ _ S)|].
        destruct (proj1 IH2) as (v' & I' & X); [eauto|]. exists v'. split; [now right|exact X].
      + intros (v & [<-|I] & Q); [exists u; split; [now left|]; now rewrite <- (sh_payee _ _ S)|].
        destruct (proj2 IH2) as (v' & I' & X); [eauto|]. exists v'. split; [now right|exact X]. }
  assert (J : (r_status (cmd E1 O) = SOk -> CmdSpec.readable E1 O) /\ (r_status (cmd E2 O) = SOk -> CmdSpec.readable E2 O) /\
    (CmdSpec.readable E1 O -> r_status (cmd E1 O) = SOk /\ cmd E1 O = cmd E2 O)).
  { destruct Hc as [-> | ->].
    - destruct (C40_accounts E1 O fs Clock Orders (holding_filters E O p fs Filters _)) as [K1 N1].
      destruct (C40_accounts E2 O fs Clock Orders (holding_filters E O p fs Filters _)) as [K2 N2].
      split; [|split].
      + intro H. destruct (readable_dec E1 O fs Clock Orders) as [R|R]; [exact R|]. now apply N1 in R.
      + intro H. destruct (readable_dec E2 O fs Clock Orders) as [R|R]; [exact R|]. now apply N2 in R.
      + intro R. pose proof (proj1 readable_shuffled R) as R'. destruct (K1 R) as (s1 & n1 & P1 & -> & A1 & L1).
        destruct (K2 R') as (s2 & n2 & P2 & -> & A2 & L2). split; [reflexivity|]. do 2 f_equal. apply ascending_same; auto.
        intro z. rewrite L1, L2. now rewrite (proj1 (Us s1 s2 (Rg s1 s2 P1 P2) z)).
    - destruct (C41_payees E1 O fs Clock Orders (holding_filters E O p fs Filters _) A) as [K1 N1].
      destruct (C41_payees E2 O fs Clock Orders (holding_filters E O p fs Filters _) A) as [K2 N2].
      split; [|split].
      + intro H. destruct (readable_dec E1 O fs Clock Orders) as [R|R]; [exact R|]. now apply N1 in R.
      + intro H. destruct (readable_dec E2 O fs Clock Orders) as [R|R]; [exact R|]. now apply N2 in R.
      + intro R. pose proof (proj1 readable_shuffled R) as R'. destruct (K1 R) as (s1 & n1 & P1 & -> & A1 & L1).
        destruct (K2 R') as (s2 & n2 & P2 & -> & A2 & L2). split; [reflexivity|]. do 2 f_equal. apply ascending_same; auto.
        intro z. rewrite L1, L2. now rewrite (proj2 (Us s1 s2 (Rg s1 s2 P1 P2) z)). }
  destruct J as (J1 & J2 & J3). split; [split|].
  - intro H. destruct (J3 (J1 H)) as [_ Q]. now rewrite <- Q.
  - intro H. apply J3. apply readable_shuffled. auto.
  - intro H. apply J3. auto.
Qed.

(** ... balance shows the same rows and total, and the same text if the journal
    is in one commodity ... *)
Theorem C123_balance : sorts E -> (r_status (balance_cmd E1 O) = SOk <-> r_status (balance_cmd E2 O) = SOk) /\
  (r_status (balance_cmd E1 O) = SOk ->
   (exists ps ps' rows t, Permutation ps ps' /\ PropsFigures.listed rows /\
     balance_cmd E1 O = Outcome (PropsFigures.reported ps rows t) SOk /\ balance_cmd E2 O = Outcome (PropsFigures.reported ps' rows t) SOk) /\
   forall c, Forall (fun e => match e with TxnEntry t => uniform c (t_postings t) | PerEntry _ => True end) es ->
     balance_cmd E2 O = balance_cmd E1 O).
Proof.
  intro So.
  assert (F1 : filters_for E1 (o_args O) fs) by (apply holding_filters; exact Filters).
  assert (F2 : filters_for E2 (o_args O) fs) by (apply holding_filters; exact Filters).
  destruct (C61_balance E1 O fs Clock Orders F1) as [K _]. destruct (C61_balance E2 O fs Clock Orders F2) as [K2 _].
  assert (B : r_status (balance_cmd E1 O) = SOk <-> r_status (balance_cmd E2 O) = SOk).
  { rewrite K, K2. split.
    - intros [R (s1 & P1 & H)]. pose proof (proj1 readable_shuffled R) as R'. destruct (holding_picked E O p Clock Orders fs Filters So _ R') as (s2 & P2).
      split; [exact R'|]. exists s2. split; [exact P2|]. eapply Permutation_Forall; [|exact H]. exact (taken_shuffled _ _ (picks_both s1 s2 P1 P2)).
    - intros [R' (s2 & P2 & H)]. pose proof (proj2 readable_shuffled R') as R. destruct (holding_picked E O p Clock Orders fs Filters So _ R) as (s1 & P1).
      split; [exact R|]. exists s1. split; [exact P1|]. eapply Permutation_Forall; [|exact H]. symmetry. exact (taken_shuffled _ _ (picks_both s1 s2 P1 P2)). }
  split; [exact B|]. intro Ok. pose proof (proj1 B Ok) as Ok2.
  destruct (proj1 K Ok) as (R1 & s1 & P1 & Pr). destruct (proj1 K2 Ok2) as (R2 & s2 & P2 & _). pose proof (taken_shuffled _ _ (picks_both s1 s2 P1 P2)) as T. split.
  - destruct (PropsFigures.same_figures E1 O fs s1 E2 O fs s2 Clock Orders F1 Clock Orders F2 Ok Ok2 P1 P2 (Permutation_map plainly T) eq_refl eq_refl eq_refl)
      as (ps & ps' & rows & t & X & X' & S & Q & Q').
    exists ps, ps', rows, t. split; [now rewrite X, X', T|]. split; [exact S|].
    destruct (balance_cmd E1 O), (balance_cmd E2 O). cbn in *. subst. auto.
  - intros c Un. apply (balance_perm c E1 O fs s1 E2 O fs s2); auto; [|now apply Permutation_map].
    unfold uniform. apply Forall_forall. intros q I. unfold taken in I. apply in_flat_map in I as ([u ps] & I & J).
    apply (picks_in _ _ _ _ _ _ _ P1) in I as (I & _ & _ & Pm).
    destruct C123_read as (es' & _ & _ & Q & _). rewrite Q in I. cbn [fst] in I.
    assert (X : forall n, In u (txns n (map (from p) es)) -> In (TxnEntry (u_txn u)) es).
    { clear. induction es as [|[t|pt] l IH]; intros n I; [destruct I| |]; cbn [map from txns] in I; [destruct I as [<-|I]; [now left|right; eauto]|right; eauto]. }
    apply X in I. rewrite Forall_forall in Un. specialize (Un _ I). cbv beta iota in Un. unfold uniform in Un. rewrite Forall_forall in Un.
    apply Un. eapply hits_in. eapply Permutation_in; eauto.
Qed.

(** ... stats shows the same text (there being no transaction on the first day of
    the year 1) ... *)
Theorem C123_stats : sorts E -> (r_status (stats_cmd E1 O) = SOk <-> r_status (stats_cmd E2 O) = SOk) /\
  (r_status (stats_cmd E1 O) = SOk -> Forall (fun e => match e with TxnEntry t => t_date t <> Date 1 1 1 | PerEntry _ => True end) es ->
   stats_cmd E2 O = stats_cmd E1 O).
Proof.
  intro So.
  assert (F1 : filters_for E1 (o_args O) fs) by (apply holding_filters; exact Filters).
  assert (F2 : filters_for E2 (o_args O) fs) by (apply holding_filters; exact Filters).
  assert (B : r_status (stats_cmd E1 O) = SOk <-> r_status (stats_cmd E2 O) = SOk).
  { rewrite (C44_completes E1 O fs Clock Orders F1), (C44_completes E2 O fs Clock Orders F2). split.
    - intros [R (s & P & H)]. pose proof (proj1 readable_shuffled R) as R2. destruct (holding_picked E O p Clock Orders fs Filters So _ R2) as (s2 & P2).
      split; [exact R2|]. exists s2. split; [exact P2|]. eapply Permutation_Forall; [|exact H]. exact (taken_shuffled _ _ (picks_both s s2 P P2)).
    - intros [R2 (s2 & P2 & H)]. pose proof (proj2 readable_shuffled R2) as R. destruct (holding_picked E O p Clock Orders fs Filters So _ R) as (s & P).
      split; [exact R|]. exists s. split; [exact P|]. eapply Permutation_Forall; [|exact H]. symmetry. exact (taken_shuffled _ _ (picks_both s s2 P P2)). }
  split; [exact B|]. intros Ok Nz. pose proof (proj1 B Ok) as Ok2.
  destruct (proj1 (C44_completes E1 O fs Clock Orders F1) Ok) as [R1 (s1 & P1 & _)]. destruct (proj1 (C44_completes E2 O fs Clock Orders F2) Ok2) as [R2 (s2 & P2 & _)].
  pose proof (picks_both s1 s2 P1 P2) as Sh.
  destruct C123_read as (es' & _ & _ & St1 & St2).
  assert (In1 : forall l n u, In u (txns n (map (from p) l)) -> In (TxnEntry (u_txn u)) l /\ u_path u = p).
  { clear. induction l as [|[t|pt] l IH]; intros n u I; [destruct I| |]; cbn [map from txns] in I.
    - destruct I as [<-|I]; [split; [now left|reflexivity]|]. destruct (IH _ _ I). split; [now right|assumption].
    - destruct (IH _ _ I). split; [now right|assumption]. }
  assert (N1 : Forall (fun t => t_date t <> Date 1 1 1) (selected s1)).
  { apply Forall_forall. intros t I. apply in_map_iff in I as ([u ps] & <- & I). apply (picks_in _ _ _ _ _ _ _ P1) in I as (I & _). rewrite St1 in I.
    apply In1 in I as [I _]. rewrite Forall_forall in Nz. exact (Nz _ I). }
  assert (N2 : Forall (fun t => t_date t <> Date 1 1 1) (selected s2)).
  { pose proof (proj1 (dates_shuffled _ _ (selected_shuffled _ _ Sh))) as D. rewrite <- (Forall_map t_date (fun d => d <> Date 1 1 1)), D, Forall_map. exact N1. }
  destruct (C122_figures E1 O fs s1 E2 O fs s2 Clock Orders F1 Clock Orders F2 (fun n => eq_refl) Ok Ok2 P1 P2) as (f1 & f2 & rep & X1 & X2 & Q1 & Q2).
  { apply Forall_app. auto. }
  { exact (figures_shuffled _ _ Sh). }
  assert (Only : forall x s, picks (holding E p x) O fs (txns 0 (fst (stream (holding E p x) O))) s -> (exists l, stream (holding E p x) O = (map (from p) l, SOk)) ->
    forall files, s <> [] -> lists (used_files s) files -> files = [p]).
  { intros x s P (l & Q) files Ne [Nd L].
    assert (A : forall a, used_files s a <-> a = p).
    { assert (Y : forall u ps, In (u, ps) s -> u_path u = p).
      { intros u ps I. apply (picks_in _ _ _ _ _ _ _ P) in I as (I & _). rewrite Q in I. now apply In1 in I. }
      intro a. split; [intros (u & ps & I & <-); eauto|]. intros ->. destruct s as [|[u ps] s]; [contradiction|]. exists u, ps. split; [now left|]. apply (Y u ps). now left. }
    destruct files as [|a [|b r]].
    - exfalso. apply (proj2 (L p)). now apply A.
    - f_equal. apply A, L. now left.
    - exfalso. assert (a = p) by (apply A, L; now left). assert (b = p) by (apply A, L; right; now left). subst. inversion Nd as [|? ? N _]. apply N. now left. }
  assert (Fl : f1 = f2).
  { destruct X1 as [[Z1 ->]|[Ne (l1 & n1 & L1 & K1 & ->)]], X2 as [[Z2 ->]|[Ne2 (l2 & n2 & L2 & K2 & ->)]].
    - reflexivity.
    - exfalso. subst s1. inversion Sh; subst. now apply Ne2.
    - exfalso. subst s2. inversion Sh; subst. now apply Ne.
    - rewrite (Only _ s1 P1 (ex_intro _ es St1) l1 Ne L1) in *. rewrite (Only _ s2 P2 (ex_intro _ es' St2) l2 Ne2 L2) in *.
      now rewrite (MistakeFacts.canonical_unique _ _ _ (Nat2Z.is_nonneg _) K1 K2). }
  subst f2. rewrite <- Q1 in Q2. clear - Ok Ok2 Q2. destruct (stats_cmd E1 O), (stats_cmd E2 O). cbn in *. congruence.
Qed.

(** ... and so does the budget, of a journal in one commodity, after what may be said
    about commodities; nothing is, if categories are of one level. *)
Theorem C123_budget : (r_status (budget_cmd E1 O) = SOk <-> r_status (budget_cmd E2 O) = SOk) /\
  (r_status (budget_cmd E1 O) = SOk -> forall c, journal_in c (fst (stream E1 O)) ->
   (exists said said' report, Forall remark (said ++ said') /\ r_out (budget_cmd E1 O) = said ++ report /\ r_out (budget_cmd E2 O) = said' ++ report) /\
   (journal_flat (fst (stream E1 O)) -> journal_flat (fst (stream E2 O)) -> budget_cmd E2 O = budget_cmd E1 O)).
Proof.
  assert (F1 : filters_for E1 (o_args O) fs) by (apply holding_filters; exact Filters).
  assert (F2 : filters_for E2 (o_args O) fs) by (apply holding_filters; exact Filters).
  pose proof (fun x => C48_report (holding E p x) O fs Clock Orders (holding_filters E O p fs Filters x)) as K.
  destruct streams_shuffled as (_ & _ & Sh).
  assert (Go : forall log, history E1 O fs 0 (fst (stream E1 O)) log -> exists log', history E2 O fs 0 (fst (stream E2 O)) log' /\ Permutation log log').
  { intros log H. apply history_holding in H. destruct (history_shuffled E O fs _ _ _ H _ Sh) as (log' & H' & Q). exists log'. split; [now apply history_holding|exact Q]. }
  assert (Sy : Forall2 shuffled_event (fst (stream E2 O)) (fst (stream E1 O))).
  { clear - Sh. induction Sh as [|e e' l l' S F IH]; [constructor|]. constructor; [|exact IH]. destruct S as [t t' q [A B C D G P]|pt pt' q A P]; [constructor; split; auto; now symmetry|constructor; auto; now symmetry]. }
  assert (Back : forall log, history E2 O fs 0 (fst (stream E2 O)) log -> exists log', history E1 O fs 0 (fst (stream E1 O)) log' /\ Permutation log log').
  { intros log H. apply history_holding in H. destruct (history_shuffled E O fs _ _ _ H _ Sy) as (log' & H' & Q). exists log'. split; [now apply history_holding|exact Q]. }
  assert (B : r_status (budget_cmd E1 O) = SOk <-> r_status (budget_cmd E2 O) = SOk).
  { unfold E1, E2. rewrite !(fun x => proj1 (K x)). split.
    - intros [R (log & H & P)]. split; [now apply readable_shuffled|]. destruct (Go _ H) as (log' & H' & Q). exists log'. split; [exact H'|]. eapply Permutation_Forall; eauto.
    - intros [R (log & H & P)]. split; [now apply readable_shuffled|]. destruct (Back _ H) as (log' & H' & Q). exists log'. split; [exact H'|]. eapply Permutation_Forall; eauto. }
  split; [exact B|]. intros Ok c J. pose proof (proj1 B Ok) as Ok2.
  destruct (proj1 (proj1 (K _)) Ok) as [R (l1 & H1 & Pr)]. destruct (Go _ H1) as (l2 & H2 & P).
  assert (U1 : Forall (in_one c) l1) by (eapply history_in; eassumption).
  assert (U2 : Forall (in_one c) l2) by (eapply Permutation_Forall; eauto).
  exact (C120_sums c E1 O fs l1 E2 O fs l2 Clock Orders F1 Clock Orders F2 Ok Ok2 H1 H2 U1 U2 (moves_perm l1 l2 P)).
Qed.
End Shuffled.

(** ** Example *)
Definition plan_lines' : list str := [lit "~  2020-02"; lit "  Rent    $300.50"; lit "  Eating out    $20"; lit "  ; for both"].
Definition plan' : assignment :=
  Assignment 2020 2 [Posting [] (lit "Rent") (cents "$" 30050); Posting [lit "for both"] (lit "Eating out") (cents "$" 2000)].
Lemma plan_written' : assignment_written U0 plan_lines' plan'.
Proof.
  apply (AssignmentWritten U0 1 (lit "2020") (lit "02") 2020 2 [lit "  Rent    $300.50"; lit "  Eating out    $20"; lit "  ; for both"]); try lia; try discriminate.
  - split; [reflexivity|]. split; [repeat constructor; cbn; lia|reflexivity].
  - split; [reflexivity|]. split; [repeat constructor; cbn; lia|reflexivity].
  - apply (MorePostings U0 (lit "  Rent    $300.50") (Posting [] (lit "Rent") (cents "$" 30050)) [] []); [|constructor|].
    { apply (AmountLine U0 0 (lit "Rent") 2 (lit "$") (lit "300.50") 30050).
      * apply spelt_account; [asciis|letters].
      * exact dollars.
      * apply (CentsAmount [] 1 (lit "300") (lit "50") 50); [constructor|discriminate|repeat constructor; cbn; lia|].
        split; [reflexivity|]. split; [repeat constructor; cbn; lia|reflexivity].
      * unfold in_int64, two63. lia. }
    apply (MorePostings U0 (lit "  Eating out    $20") (Posting [] (lit "Eating out") (cents "$" 2000)) [lit "  ; for both"] [lit "for both"] [] []); [| |constructor].
    + apply (AmountLine U0 0 (lit "Eating out") 2 (lit "$") (lit "20") 2000).
      * apply spelt_account; [asciis|letters].
      * exact dollars.
      * apply (WholeAmount [] 1 (lit "20")); [constructor|discriminate|repeat constructor; cbn; lia].
      * unfold in_int64, two63. lia.
    + constructor; [|constructor]. apply (RemarkLine 0 59 1 (lit "for both")); [now left|].
      exists (lit "for both"). split; [valid_runes|]. split; [|reflexivity]. split; discriminate.
Qed.
Lemma spelt_commodity : forall c, c = lit "$" \/ c = lit "£" -> spelt (commodity_text U0) c.
Proof. intros c [-> | ->]; [exact dollars|]. exists [163]. split; [valid_runes|]. split; [|reflexivity]. exists [163]. repeat split; [|now left]. repeat constructor. Qed.
(** A transaction of 2020-01-02: what is paid for, and the account paid from. *)
Definition bought (a c : str) (n : str) : str := lit "  " ++ a ++ lit "    " ++ c ++ n.
Lemma shop_header : header_written (lit "2020-01-02   Shop") (Date 2020 1 2) NoState (lit "Shop") [].
Proof.
  apply (HeaderPayee 45 (lit "2020-01-02") (Date 2020 1 2) NoState 2 0 (lit "Shop")); [now left| | |].
  - apply (YMD 45 (Date 2020 1 2) (lit "2020") (lit "01") (lit "02")); (split; [reflexivity|]); split; try reflexivity; repeat constructor; cbn; lia.
  - left. cbn. split; [auto|lia].
  - exists (lit "Shop"). split; [valid_runes|]. split; [|reflexivity]. right. repeat split; try discriminate; try valid_runes; try reflexivity.
    right. right. repeat split; discriminate.
Qed.
Lemma bought_written : forall a c n q ls ps, spelt (account_text U0) (lit a) -> c = lit "$" \/ c = lit "£" ->
  amount_text n q -> in_int64 q -> postings_written U0 ls ps ->
  postings_written U0 (bought (lit a) c n :: ls) (Posting [] (lit a) (Some (Amount c q)) :: ps).
Proof.
  intros a c n q ls ps A C N I H. apply (MorePostings U0 (bought (lit a) c n) (Posting [] (lit a) (Some (Amount c q))) [] []); [|constructor|exact H].
  apply (AmountLine U0 0 (lit a) 2 c n q); auto. now apply spelt_commodity.
Qed.
Lemma ten : amount_text (lit "10") 1000. Proof. apply (WholeAmount [] 1 (lit "10")); [constructor|discriminate|repeat constructor; cbn; lia]. Qed.
Lemma two : amount_text (lit "2") 200. Proof. apply (WholeAmount [] 1 (lit "2")); [constructor|discriminate|repeat constructor; cbn; lia]. Qed.
Lemma elided_written : postings_written U0 [lit "  A"] [Posting [] (lit "A") None].
Proof. apply (MorePostings U0 (lit "  A") (Posting [] (lit "A") None) [] []); [|constructor|constructor]. apply (ElidedLine U0 0 (lit "A")). apply spelt_account; [asciis|letters]. Qed.

Definition shop_lines' : list str := [lit "2020-01-02   Shop"; lit "  D    $2"; lit "  C    $10"; lit "  A"].
Definition shop_txn' : transaction :=
  Txn (Date 2020 1 2) NoState (lit "Shop")
    [Posting [] (lit "D") (cents "$" 200); Posting [] (lit "C") (cents "$" 1000); Posting [] (lit "A") None] None [] [].
Lemma shop_written' : txn_written U0 shop_lines' shop_txn'.
Proof.
  apply (TxnWritten U0 (lit "2020-01-02   Shop") (Date 2020 1 2) NoState (lit "Shop") [] [] [] [lit "  D    $2"; lit "  C    $10"; lit "  A"]); try discriminate; [exact shop_header|constructor|].
  apply (bought_written "D" (lit "$") (lit "2") 200); [apply spelt_account; [asciis|letters]|auto|exact two|unfold in_int64, two63; lia|].
  apply (bought_written "C" (lit "$") (lit "10") 1000); [apply spelt_account; [asciis|letters]|auto|exact ten|unfold in_int64, two63; lia|exact elided_written].
Qed.

Definition order_lines : list str := book_lines ++ shop_lines ++ [[]].
Definition order_lines' : list str := plan_lines' ++ [] :: cafe_lines ++ shop_lines' ++ [[]].
Definition order_written : list writing := [WBudget plan; WTxn cafe_txn; WTxn shop_txn].
Definition order_written' : list writing := [WBudget plan'; WTxn cafe_txn; WTxn shop_txn'].
Definition order_entries : list FlatSpec.entry := [PerEntry plan_filled; TxnEntry cafe_txn; TxnEntry shop_filled].
Lemma shuffled_refl : forall t, shuffled t t. Proof. intro t. split; reflexivity. Qed.

Example C123_example : let E := env1 [] in let O := opts_zero [] [] in
  let E1 := holding E (lit "j") (text_of order_lines) in let E2 := holding E (lit "j") (text_of order_lines') in
  journal_path E O = Some (lit "j") /\ book_written (e_unicode E) order_lines order_written /\ book_written (e_unicode E) order_lines' order_written' /\
  Forall JournalText.readable order_lines /\ Forall JournalText.readable order_lines' /\
  Forall2 means order_written order_entries /\ Forall2 shuffled_writing order_written order_written' /\ Forall one_way order_written /\
  sane_clock E /\ orders E /\ sorts E /\ filters_for E (o_args O) [] /\
  Forall (fun e => match e with TxnEntry t => uniform (lit "$") (t_postings t) /\ t_date t <> Date 1 1 1 | PerEntry _ => True end) order_entries /\
  Forall (fun r => r_status r = SOk) [print_cmd E1 O; accounts_cmd E1 O; payees_cmd E1 O; balance_cmd E1 O; stats_cmd E1 O; budget_cmd E1 O] /\
  journal_in (lit "$") (fst (stream E1 O)) /\ journal_flat (fst (stream E1 O)) /\ journal_flat (fst (stream E2 O)) /\
  r_out (print_cmd E2 O) <> r_out (print_cmd E1 O).
Proof.
  cbn zeta. split; [reflexivity|]. split.
  { change order_lines with (plan_lines ++ [] :: removelast cafe_lines ++ [] :: shop_lines ++ [] :: []).
    apply BookBudget; [exact plan_written|]. apply BookTxn; [exact cafe_txn_written|]. apply BookTxn; [exact shop_written|constructor]. }
  split.
  { change order_lines' with (plan_lines' ++ [] :: removelast cafe_lines ++ [] :: shop_lines' ++ [] :: []).
    apply BookBudget; [exact plan_written'|]. apply BookTxn; [exact cafe_txn_written|]. apply BookTxn; [exact shop_written'|constructor]. }
  split. { repeat constructor; vm_compute; try discriminate; try reflexivity; intro X; repeat (destruct X as [X|X]; [discriminate X|]); exact X. }
  split. { repeat constructor; vm_compute; try discriminate; try reflexivity; intro X; repeat (destruct X as [X|X]; [discriminate X|]); exact X. }
  split.
  { constructor; [constructor; apply FundPays; repeat constructor; discriminate|].
    constructor; [constructor; constructor; split; [reflexivity|]; split; [repeat constructor; discriminate|reflexivity]|]. constructor; [|constructor]. constructor.
    apply (OneLeft (Date 2020 1 2) NoState (lit "Shop") [] [] (lit "A")
      [Posting [] (lit "C") (cents "$" 1000); Posting [] (lit "D") (cents "$" 200)] [] []); [repeat constructor; discriminate|].
    unfold zero64. vm_compute. discriminate. }
  split.
  { constructor; [constructor; apply perm_swap|]. constructor; [constructor; [apply shuffled_refl|reflexivity]|]. constructor; [|constructor].
    constructor; [|reflexivity]. split; try reflexivity. cbn [t_postings shop_txn shop_txn']. etransitivity; [apply perm_skip, perm_swap|]. etransitivity; [apply perm_swap|].
    apply perm_skip, perm_swap. }
  split.
  { constructor; [exists (lit "$"); repeat constructor|]. constructor; [left; repeat constructor; discriminate|]. constructor; [|constructor]. right. exists (lit "$").
    repeat constructor. intro X. now contradiction X. }
  split; [apply env1_clock|]. split; [apply env1_orders|]. split; [exact (env0_sorts [])|]. split; [split; constructor|].
  split. { repeat constructor; discriminate. }
  split. { repeat (apply Forall_cons; [vm_compute; reflexivity|]). apply Forall_nil. }
  assert (J : forall evs, forallb (fun e => forallb (fun q => str_eqb (commodity_of q) (lit "$")) (match e with ETxn t _ => t_postings t | EPer pt _ => t_postings (pt_txn pt) end)) evs = true -> journal_in (lit "$") evs).
  { intros evs J1. rewrite forallb_forall in J1.
    split; intros t p I; apply Forall_forall; intros q J _; specialize (J1 _ I); cbv beta iota in J1; rewrite forallb_forall in J1; now apply str_eqb_eq, J1. }
  split; [apply J; vm_compute; reflexivity|]. split; [apply flatb_ok; vm_compute; reflexivity|]. split; [apply flatb_ok; vm_compute; reflexivity|].
  vm_compute. discriminate.
Qed.

(** With an amount left out beside amounts in two commodities the order matters:
    what is left out is in the commodity named last. *)
Definition mixed_lines : list str := [lit "2020-01-02   Shop"; lit "  C    $10"; lit "  D    £2"; lit "  A"; []].
Definition mixed_lines' : list str := [lit "2020-01-02   Shop"; lit "  D    £2"; lit "  C    $10"; lit "  A"; []].
Definition mixed_txn : transaction :=
  Txn (Date 2020 1 2) NoState (lit "Shop")
    [Posting [] (lit "C") (cents "$" 1000); Posting [] (lit "D") (cents "£" 200); Posting [] (lit "A") None] None [] [].
Definition mixed_txn' : transaction :=
  Txn (Date 2020 1 2) NoState (lit "Shop")
    [Posting [] (lit "D") (cents "£" 200); Posting [] (lit "C") (cents "$" 1000); Posting [] (lit "A") None] None [] [].
Theorem C123_two_commodities : let E := env1 [] in let O := opts0 "j" in
  let E1 := holding E (lit "j") (text_of mixed_lines) in let E2 := holding E (lit "j") (text_of mixed_lines') in
  book_written (e_unicode E) mixed_lines [WTxn mixed_txn] /\ book_written (e_unicode E) mixed_lines' [WTxn mixed_txn'] /\
  shuffled_writing (WTxn mixed_txn) (WTxn mixed_txn') /\ ~ one_way (WTxn mixed_txn) /\
  In (lit "             £-12.00  A" ++ [10] ++ lit "              $10.00  C" ++ [10] ++ lit "               £2.00  D" ++ [10]) (r_out (balance_cmd E1 O)) /\
  In (lit "             $-12.00  A" ++ [10] ++ lit "              $10.00  C" ++ [10] ++ lit "               £2.00  D" ++ [10]) (r_out (balance_cmd E2 O)).
Proof.
  cbn zeta. split.
  { change mixed_lines with (removelast mixed_lines ++ [] :: []). apply BookTxn; [|constructor].
    apply (TxnWritten U0 (lit "2020-01-02   Shop") (Date 2020 1 2) NoState (lit "Shop") [] [] [] [lit "  C    $10"; lit "  D    £2"; lit "  A"]); try discriminate; [exact shop_header|constructor|].
    apply (bought_written "C" (lit "$") (lit "10") 1000); [apply spelt_account; [asciis|letters]|auto|exact ten|unfold in_int64, two63; lia|].
    apply (bought_written "D" (lit "£") (lit "2") 200); [apply spelt_account; [asciis|letters]|auto|exact two|unfold in_int64, two63; lia|exact elided_written]. }
  split.
  { change mixed_lines' with (removelast mixed_lines' ++ [] :: []). apply BookTxn; [|constructor].
    apply (TxnWritten U0 (lit "2020-01-02   Shop") (Date 2020 1 2) NoState (lit "Shop") [] [] [] [lit "  D    £2"; lit "  C    $10"; lit "  A"]); try discriminate; [exact shop_header|constructor|].
    apply (bought_written "D" (lit "£") (lit "2") 200); [apply spelt_account; [asciis|letters]|auto|exact two|unfold in_int64, two63; lia|].
    apply (bought_written "C" (lit "$") (lit "10") 1000); [apply spelt_account; [asciis|letters]|auto|exact ten|unfold in_int64, two63; lia|exact elided_written]. }
  split. { constructor; [|reflexivity]. split; try reflexivity. apply perm_swap. }
  split.
  { intros [X|(c & X)]; cbn [t_postings mixed_txn] in X.
    - rewrite Forall_forall in X. apply (X (Posting [] (lit "A") None)); [right; right; now left|reflexivity].
    - unfold uniform in X. inversion X as [|? ? X1 X']; subst. inversion X' as [|? ? X2 _]; subst. specialize (X1 ltac:(discriminate)). specialize (X2 ltac:(discriminate)).
      rewrite <- X1 in X2. discriminate. }
  split; vm_compute; repeat (first [left; reflexivity|right]).
Qed.
