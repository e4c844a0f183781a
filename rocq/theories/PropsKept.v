(** * C112: what the journal that balance builds holds *)
From Verif Require Import Base BaseFacts Utf8 Unicode GoTime Strconv Display Journal Lexer Parser ParserFacts Account Reporting Cmd Spec
  TreeSpec TreeFacts ReportSpec ReportFacts CmdSpec CmdFacts BalanceFacts FlatSpec Sample PropsCmd PropsBalance.

Definition budget_entries (evs : list event) : list ptransaction := flat_map (fun ev => match ev with EPer pt _ => [pt] | ETxn _ _ => [] end) evs.

Lemma adding_keeps : forall ps j, let j' := fst (fst (j_addPostings j ps)) in j_txns j' = j_txns j /\ j_ptxns j' = j_ptxns j /\ j_paths j' = j_paths j.
Proof.
  induction ps as [|p ps IH]; intro j; cbn [j_addPostings]; [auto|]. unfold j_addPosting. destruct (wireUpPosting (j_root j) p) as [[r out]|]; [|auto].
  specialize (IH (Jrn (j_txns j) (j_ptxns j) (j_paths j) r)). destruct (j_addPostings _ ps) as [[j1 o1] r1]. exact IH.
Qed.

Section Kept.
Variable E : env.
Variable O : opts.
Variable fs : list filter_.
Hypothesis C : sane_clock E.
Hypothesis Or : orders E.

Lemma kept_deliver : forall evs s ps0, Forall month_event evs -> TreeFacts.built ps0 (j_root (h_data s)) ->
  let '(s', r) := deliver_all (Some (checked E O fs balance_handler)) (Some balance_ph) s evs in
  r = SOk -> exists more, picks E O fs (txns (h_n s) evs) more /\ TreeFacts.built (ps0 ++ taken more) (j_root (h_data s')) /\
    j_txns (h_data s') = j_txns (h_data s) ++ map (fun x => u_txn (fst x)) more /\
    j_paths (h_data s') = j_paths (h_data s) ++ map (fun x => u_path (fst x)) more /\
    j_ptxns (h_data s') = j_ptxns (h_data s) ++ budget_entries evs.
Proof.
  induction evs as [|[t p|pt p] evs IH]; intros s ps0 M B; cbn [deliver_all].
  - intros _. exists []. split; [constructor|]. cbn. rewrite !app_nil_r. auto.
  - inversion M as [|? ? _ M']; subst. cbn [deliver txns].
    destruct (checked_cases E O C Or _ fs balance_handler s t p) as [(G & W & Q)|[(G & W & Ht & ps & P & Wh & Q)|(G & e & Q)]]; rewrite Q; [| |discriminate].
    + specialize (IH (HS (Datatypes.S (h_n s)) (h_out s) (h_data s)) ps0 M' B). destruct (deliver_all _ _ _ evs) as [s' r].
      intro R. destruct (IH R) as (more & Pm & K). exists more. split; [apply PickNot; auto|exact K].
    + unfold balance_handler. cbn [h_data h_n h_out]. pose proof (adding_keeps ps (j_addTransaction (h_data s) t p)) as (K1 & K2 & K3). pose proof (add_all ps ps0 (j_addTransaction (h_data s) t p) B) as K.
      destruct (j_addPostings (j_addTransaction (h_data s) t p) ps) as [[j1 o1] r1]. cbn [fst] in K1, K2, K3. destruct r1; try discriminate. destruct K as (_ & B1 & _).
      specialize (IH (HS (Datatypes.S (h_n s)) (h_out s ++ o1) j1) (ps0 ++ ps) M' B1). destruct (deliver_all _ _ _ evs) as [s' r].
      intro R. destruct (IH R) as (more & Pm & B2 & Q1 & Q2 & Q3). exists ((Used (h_n s) t p, ps) :: more). split; [apply PickIt; auto|].
      cbn [h_data] in Q1, Q2, Q3. rewrite Q1, Q2, Q3, K1, K2, K3. cbn [j_addTransaction j_txns j_paths j_ptxns map fst u_txn u_path budget_entries flat_map].
      unfold taken in *. cbn [flat_map snd]. rewrite <- !app_assoc. rewrite <- app_assoc in B2. auto.
  - inversion M as [|? ? Mp M']; subst. cbn [deliver txns]. unfold balance_ph, j_addPeriodicTransaction. cbn in Mp.
    destruct (is_pnone (pe_interval (pt_period pt))) eqn:Q; [|now rewrite Mp in Q].
    match goal with |- context [deliver_all _ _ ?s1 evs] => specialize (IH s1 ps0 M' B); destruct (deliver_all _ _ s1 evs) as [s' r] end.
    intro R. destruct (IH R) as (more & Pm & B2 & Q1 & Q2 & Q3). exists more. split; [exact Pm|]. split; [exact B2|]. cbn [h_data j_txns j_paths j_ptxns] in Q1, Q2, Q3.
    split; [exact Q1|]. split; [exact Q2|]. rewrite Q3. cbn [budget_entries flat_map]. now rewrite <- app_assoc.
Qed.

(** The transactions used, in the order of the journal, each with the file it is
    counted for; every budget entry; and the postings used in the tree. *)
Theorem C112_kept : forall s, balance_run E O fs = (s, SOk) ->
  exists sel, picks E O fs (txns 0 (fst (stream E O))) sel /\
    j_txns (h_data s) = map (fun x => u_txn (fst x)) sel /\
    j_paths (h_data s) = map (fun x => u_path (fst x)) sel /\
    j_ptxns (h_data s) = budget_entries (fst (stream E O)) /\
    (forall p, In p (taken sel) -> exists d, node (j_root (h_data s)) (components p) d) /\
    forall q d, node (j_root (h_data s)) q d -> a_postings d = filter (here q) (taken sel).
Proof.
  intros s. unfold balance_run. pose proof (kept_deliver (fst (stream E O)) (HS 0 [] newJournal) [] (stream_months E O) built_new) as K.
  pose proof (parse_cmd_fold E O _ (Some (checked E O fs balance_handler)) (Some balance_ph) (HS 0 [] newJournal)) as F.
  intro Q. rewrite Q in F. destruct (stream E O) as [evs st]. cbn [fst snd h_n] in *.
  destruct (deliver_all _ _ _ evs) as [s' r']. cbn [fst snd] in F. destruct F as [-> F].
  destruct r'; [|cbn in F; discriminate..]. destruct (K eq_refl) as (sel & Pk & B & Q1 & Q2 & Q3). exists sel. split; [exact Pk|]. cbn [app] in B.
  split; [exact Q1|]. split; [exact Q2|]. split; [exact Q3|]. pose proof (b_distinct _ _ B) as Ds. split.
  - intros p I. destruct (data_at (components p) (j_root (h_data s'))) as [d|] eqn:Q0; [exists d; now apply node_data_at|].
    destruct (b_none _ _ B _ Q0) as [_ X]. assert (Y : In p (filter (below (components p)) (taken sel))).
    { apply filter_In. split; [exact I|]. apply prefixb_iff. exists []; now rewrite app_nil_r. }
    rewrite X in Y. destruct Y.
  - intros q d X. apply node_data_at in X; [|exact Ds]. now destruct (b_some _ _ B _ _ X) as (_ & _ & _ & P & _).
Qed.
End Kept.

Definition kept_text : str := lit "2020-01-03 Shop
  A:b    $2
  C
~ 2020-01
  Expenses:x    $1

2020-01-01 Bank
  C    $3
  D
".
Example C112_example :
  sane_clock (env0 [(lit "j", kept_text)]) /\ orders (env0 [(lit "j", kept_text)]) /\
  exists s, balance_run (env0 [(lit "j", kept_text)]) (opts0 "j") [] = (s, SOk) /\
    map t_payee (j_txns (h_data s)) = [lit "Shop"; lit "Bank"] /\ j_paths (h_data s) = [lit "j"; lit "j"] /\ length (j_ptxns (h_data s)) = 1%nat /\
    exists d, node (j_root (h_data s)) [lit "C"] d /\ length (a_postings d) = 2%nat.
Proof.
  split; [apply env0_clock|]. split; [apply env0_orders|].
  destruct (balance_run (env0 [(lit "j", kept_text)]) (opts0 "j") []) as [s r] eqn:Q. vm_compute in Q. injection Q as <- <-.
  eexists. split; [reflexivity|]. split; [reflexivity|]. split; [reflexivity|]. split; [reflexivity|].
  eexists. split; [cbn; eapply NodeBelow; [right; left; reflexivity|constructor]|reflexivity].
Qed.
