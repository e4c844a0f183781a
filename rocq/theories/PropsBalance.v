(** * Properties of the balance command: C24, C26, C57, C61 *)
From Verif Require Import Base BaseFacts Utf8 Unicode GoTime Strconv Display Journal Lexer Parser ParserFacts
  Account Reporting Cmd Spec JournalFacts TreeSpec TreeFacts PruneFacts ReportSpec ReportFacts CollapseFacts TextSpec CmdSpec StreamFacts CmdFacts
  ParseRel BalanceFacts Sample PropsCmd.

(** ** C61: what balance prints *)
Lemma prepared : forall E O ps root, orders E -> built ps root ->
  distinct (prepareBalance E O root) /\
  forall q d, node (prepareBalance E O root) q d <-> (q = [] \/ shown (o_show_zero O) ps q) /\ holds ps q d.
Proof.
  intros E O ps root Or B. pose proof (b_distinct _ _ B) as D. unfold prepareBalance, shown. destruct (o_show_zero O).
  - split; [exact D|]. intros q d. rewrite built_node by exact B. split; (intros [K H]; split; [|exact H]); destruct K as [K|K]; auto.
    destruct K as [K _]. auto.
  - destruct (remove_empty_spec (e_tree_order E) root (proj2 Or) D) as [D' H]. split; [exact D'|]. intros q d.
    rewrite H, (built_node ps root q d B). split.
    + intros [[K Hd] F]. split; [|exact Hd]. destruct K as [K|K]; [auto|]. right. split; [exact K|]. right. intros r Nr Pr.
      destruct K as (p & Ip & Pp). assert (K : prefix r (components p)).
      { destruct Pr as [x ->]. destruct Pp as [y Ey]. exists (x ++ y). now rewrite app_assoc. }
      assert (X : exists x, node root r x).
      { destruct (data_at r root) as [x|] eqn:Dr; [exists x; apply node_data_at; auto|].
        destruct (b_none _ _ B _ Dr) as [_ Fl].
        assert (X : In p (filter (below r) ps)) by (apply filter_In; split; [exact Ip|now apply prefixb_iff]).
        rewrite Fl in X. destruct X. }
      destruct X as [x X]. destruct (F r x Nr Pr X) as [Z|Z]; [|right; exact Z]. left.
      apply (built_node ps root r x B) in X as [_ X]. rewrite <- (h_quantity _ _ _ X). exact Z.
    + intros [K Hd]. split; [split; [|exact Hd]; destruct K as [K|[K _]]; auto|]. intros p x Np Pp X.
      destruct K as [->|[_ [K|K]]]; [destruct Pp as [y Ey]; destruct p; [contradiction|discriminate]|discriminate|].
      apply (built_node ps root p x B) in X as [_ X]. rewrite (h_quantity _ _ _ X). now apply K.
Qed.

(** The amount column: 20 wide, right-aligned. *)
Definition column (c : str) (q : Z) : str := flush_right 20 (c ++ display_quantity q).

Lemma balance_cmd_run : forall E O fs, filters_for E (o_args O) fs -> balance_cmd E O =
  finish (balance_run E O fs) (fun _ j => (report O (prepareBalance E O (j_root j)), SOk)).
Proof. intros E O fs F. apply makeFilters_spec in F. unfold balance_cmd, with_filters. now rewrite F. Qed.

(** balance ends normally iff the journal can be read and every posting selected
    has an amount.  Then it complains about mixed commodities, and prints a report
    on the tree of the accounts shown, a rule and the total. *)
Theorem C61_balance : forall E O fs, sane_clock E -> orders E -> filters_for E (o_args O) fs ->
  (r_status (balance_cmd E O) = SOk <->
   readable E O /\ exists sel, picks E O fs (txns 0 (fst (stream E O))) sel /\ Forall priced (taken sel)) /\
  (r_status (balance_cmd E O) = SOk -> exists sel t, picks E O fs (txns 0 (fst (stream E O))) sel /\ distinct t /\
     (forall q d, node t q d <-> (q = [] \/ shown (o_show_zero O) (taken sel) q) /\ holds (taken sel) q d) /\
     r_out (balance_cmd E O) = complaints [] (taken sel) ++
       [(if o_flatten O then FlattenedTree prepender t else Tree prepender (o_collapse O) t) ++ [10];
        lit "--------------------" ++ [10];
        column [] (wrap64 (total (taken sel))) ++ [10]]).
Proof.
  intros E O fs C Or F. rewrite (balance_cmd_run E O fs F). pose proof (balance_run_spec E O fs C Or) as K.
  destruct (balance_run E O fs) as [s r].
  destruct r; [|(split; [split; [discriminate|contradiction]|discriminate])..].
  destruct K as (R & sel & P & Fp & B & Q). unfold finish. cbn [r_status r_out]. split.
  - split; [intros _|reflexivity]. split; [exact R|]. eauto.
  - intros _. exists sel, (prepareBalance E O (j_root (h_data s))). destruct (prepared E O (taken sel) _ Or B) as [D H].
    split; [exact P|]. split; [exact D|]. split; [exact H|]. rewrite Q. f_equal. unfold report.
    assert (Hr : holds (taken sel) [] (acc_data (prepareBalance E O (j_root (h_data s))))).
    { apply H. now apply node_nil. }
    assert (A : displayableQuantity (a_amount (acc_data (prepareBalance E O (j_root (h_data s))))) false =
                [] ++ display_quantity (wrap64 (total (taken sel)))).
    { unfold displayableQuantity. rewrite (h_quantity _ _ _ Hr).
      assert (X : forall l, filter (below []) l = l) by (induction l as [|x l IH]; [reflexivity|]; cbn; now rewrite IH).
      rewrite X. reflexivity. }
    rewrite A, pad_left_flush. reflexivity.
Qed.

Lemma prepender_nonempty : forall d, prepender d <> [].
Proof. intros d H. apply (f_equal (@length Z)) in H. unfold prepender in H. rewrite app_length in H. cbn in H. lia. Qed.

(** The plain report, line by line. *)
Theorem C61_rows : forall E O fs, sane_clock E -> orders E -> filters_for E (o_args O) fs ->
  o_flatten O = false -> o_collapse O = false -> r_status (balance_cmd E O) = SOk ->
  exists sel rows, picks E O fs (txns 0 (fst (stream E O))) sel /\ in_order rows /\
    (forall q d, In (q, d) rows <-> q <> [] /\ shown (o_show_zero O) (taken sel) q /\ holds (taken sel) q d) /\
    r_out (balance_cmd E O) = complaints [] (taken sel) ++
      [unlines (map (fun r => column (first_commodity (filter (below (fst r)) (taken sel))) (wrap64 (total (filter (below (fst r)) (taken sel))))
                              ++ [32; 32] ++ rep (2 * (length (fst r) - 1)) 32 ++ last (fst r) (lit "_root_")) rows) ++ [10];
       lit "--------------------" ++ [10];
       column [] (wrap64 (total (taken sel))) ++ [10]].
Proof.
  intros E O fs C Or F Ff Fc Ok. destruct (C61_balance E O fs C Or F) as [_ K]. destruct (K Ok) as (sel & t & P & D & H & Q).
  rewrite Ff, Fc in Q. exists sel, (rows [] t). split; [exact P|]. split; [now apply rows_order|].
  assert (I : forall q d, In (q, d) (rows [] t) <-> q <> [] /\ shown (o_show_zero O) (taken sel) q /\ holds (taken sel) q d).
  { intros q d. rewrite rows_iff. split.
    - intros (k & r & -> & N). apply H in N as [[N|N] Hd]; [discriminate|]. split; [discriminate|]. auto.
    - intros (Nq & S & Hd). destruct q as [|k r]; [contradiction|]. exists k, r. split; [reflexivity|]. apply H. auto. }
  split; [exact I|]. rewrite Q. do 3 f_equal. rewrite Tree_rows.
  rewrite add_lines_nil.
  - f_equal. apply map_ext_in. intros [q d] Iq. apply I in Iq as (Nq & _ & Hd). unfold tree_line, prepender, displayableQuantity, column. rewrite pad_left_flush.
    cbn [fst snd]. rewrite (h_quantity _ _ _ Hd), (h_commodity _ _ _ Hd), (h_name _ _ _ Hd), <- !app_assoc. reflexivity.
  - rewrite Forall_forall. intros l Il. apply in_map_iff in Il as (r & <- & _). unfold tree_line.
    pose proof (prepender_nonempty (snd r)). destruct (prepender (snd r)); [contradiction|discriminate].
Qed.

(** The flat report: the shown accounts with nothing shown below. *)
Theorem C61_flat : forall E O fs, sane_clock E -> orders E -> filters_for E (o_args O) fs ->
  o_flatten O = true -> r_status (balance_cmd E O) = SOk ->
  exists sel rows, picks E O fs (txns 0 (fst (stream E O))) sel /\ in_order rows /\
    (forall q d, In (q, d) rows <-> (q = [] \/ shown (o_show_zero O) (taken sel) q) /\ holds (taken sel) q d /\
                                    forall k, ~ shown (o_show_zero O) (taken sel) (q ++ [k])) /\
    r_out (balance_cmd E O) = complaints [] (taken sel) ++
      [unlines (map (fun r => column (first_commodity (filter (below (fst r)) (taken sel))) (wrap64 (total (filter (below (fst r)) (taken sel))))
                              ++ [32; 32] ++ join [58] (visible (fst r))) rows) ++ [10];
       lit "--------------------" ++ [10];
       column [] (wrap64 (total (taken sel))) ++ [10]].
Proof.
  intros E O fs C Or F Ff Ok. destruct (C61_balance E O fs C Or F) as [_ K]. destruct (K Ok) as (sel & t & P & D & H & Q).
  rewrite Ff in Q. exists sel, (leaf_rows [] t). split; [exact P|]. split; [now apply leaf_rows_order|].
  assert (I : forall q d, In (q, d) (leaf_rows [] t) <-> (q = [] \/ shown (o_show_zero O) (taken sel) q) /\ holds (taken sel) q d /\
                                    forall k, ~ shown (o_show_zero O) (taken sel) (q ++ [k])).
  { assert (X : forall q, shown (o_show_zero O) (taken sel) q -> exists d, node t q d).
    { intros q S. set (ps := taken sel) in *. set (d := AD (last q (lit "_root_")) (join [58] (visible q))
        (Amount (first_commodity (filter (below q) ps)) (wrap64 (total (filter (below q) ps)))) (filter (here q) ps)).
      exists d. apply H. split; [auto|]. split; reflexivity. }
    intros q d. rewrite leaf_rows_iff. split.
    - intros (r & -> & S). apply subtree_node in S as N. cbn [acc_data] in N. apply H in N as [N Hd]. split; [exact N|]. split; [exact Hd|].
      intros k Sk. destruct (X _ Sk) as [x Nx]. apply node_subtree in Nx as (b & Sb & _).
      cbn [app] in *. apply subtree_find in S; [|exact D]. apply subtree_find in Sb; [|exact D]. rewrite find_at_app, S in Sb. discriminate.
    - intros (N & Hd & L). exists q. split; [reflexivity|]. assert (Nq : node t q d) by (apply H; auto).
      apply node_subtree in Nq as ([d' ch] & Sb & Ed). cbn in Ed. subst d'. destruct ch as [|[k c] ch]; [exact Sb|]. exfalso.
      apply (L k). assert (Nk : node t (q ++ [k]) (acc_data c)).
      { apply subtree_find in Sb; [|exact D]. apply node_data_at; [exact D|]. rewrite data_at_app, Sb. rewrite data_at_cons.
        unfold get, assoc. cbn. rewrite str_eqb_refl. reflexivity. }
      apply H in Nk as [[Nk|Nk] _]; [destruct q; discriminate|exact Nk]. }
  split; [exact I|]. rewrite Q. do 3 f_equal. unfold FlattenedTree. rewrite (flat_rows prepender t []).
  rewrite add_lines_nil.
  - f_equal. apply map_ext_in. intros [q d] Iq. apply I in Iq as (Nq & Hd & _). unfold flat_line, prepender, displayableQuantity, column. rewrite pad_left_flush.
    cbn [fst snd]. rewrite (h_quantity _ _ _ Hd), (h_commodity _ _ _ Hd), (h_path _ _ _ Hd), <- !app_assoc. reflexivity.
  - rewrite Forall_forall. intros l Il. apply in_map_iff in Il as (r & <- & _). unfold flat_line.
    pose proof (prepender_nonempty (snd r)). destruct (prepender (snd r)); [contradiction|discriminate].
Qed.

(** The collapsed report: a line for every account shown below which not exactly
    one account is shown. *)
Lemma holds_some : forall ps q, exists d, holds ps q d.
Proof.
  intros ps q. exists (AD (last q (lit "_root_")) (join [58] (visible q))
    (Amount (first_commodity (filter (below q) ps)) (wrap64 (total (filter (below q) ps)))) (filter (here q) ps)).
  split; reflexivity.
Qed.

Lemma nodes_named : forall a p, (forall q d, node a q d -> a_name d = last (p ++ q) (lit "_root_")) -> named a.
Proof.
  intro a. induction a as [d ch IH] using account_ind'. intros p H. rewrite Forall_forall in IH. constructor. intros k c I. split.
  - rewrite (H [k] (acc_data c)); [now rewrite last_last|]. apply node_cons. exists c. split; [exact I|]. destruct c. constructor.
  - apply (IH _ I (p ++ [k])). intros q x N. rewrite <- app_assoc. apply H. apply node_cons. eauto.
Qed.

Theorem C61_collapsed : forall E O fs, sane_clock E -> orders E -> filters_for E (o_args O) fs ->
  o_flatten O = false -> o_collapse O = true -> r_status (balance_cmd E O) = SOk ->
  exists sel rows, picks E O fs (txns 0 (fst (stream E O))) sel /\
    let sh := shown (o_show_zero O) (taken sel) in
    StronglySorted path_lt (map fst rows) /\
    (forall q n names, In (q, (n, names)) rows <-> q <> [] /\ sh q /\ ~ alone sh q /\ folded (alone sh) q n names) /\
    r_out (balance_cmd E O) = complaints [] (taken sel) ++
      [unlines (map (fun r => column (first_commodity (filter (below (fst r)) (taken sel))) (wrap64 (total (filter (below (fst r)) (taken sel))))
                              ++ [32; 32] ++ rep (2 * fst (snd r)) 32 ++ join [58] (snd (snd r))) rows) ++ [10];
       lit "--------------------" ++ [10];
       column [] (wrap64 (total (taken sel))) ++ [10]].
Proof.
  intros E O fs C Or F Ff Fc Ok. destruct (C61_balance E O fs C Or F) as [_ K]. destruct (K Ok) as (sel & t & P & D & H & Q).
  rewrite Ff, Fc in Q. set (sh := shown (o_show_zero O) (taken sel)) in *. set (there := fun r => exists x, node t r x).
  assert (Th : forall r, r <> [] -> (there r <-> sh r)).
  { intros r Nr. split.
    - intros [x N]. apply H in N as [[N|N] _]; [contradiction|exact N].
    - intro S. destruct (holds_some (taken sel) r) as [d Hd]. exists d. apply H. auto. }
  assert (Al : forall r, alone there r <-> alone sh r).
  { intro r. split; intros [k X]; exists k; intro k'; rewrite <- X; [symmetry|]; apply Th; destruct r; discriminate. }
  exists sel, (map (fun r : crow => let '(q, (n, names, _)) := r in (q, (n, names))) (top_rows t)). split; [exact P|].
  split; [|split].
  - rewrite map_map. replace (map _ (top_rows t)) with (map fst (top_rows t)); [now apply top_rows_order|].
    apply map_ext. intros [q [[n names] d]]. reflexivity.
  - intros q n names. rewrite in_map_iff. split.
    + intros ([q' [[n' names'] d]] & E1 & I). inversion E1; subst. apply (top_rows_iff t D) in I as (Nq & N & Na & Fo).
      fold there in Na, Fo. split; [exact Nq|]. split; [apply Th; [exact Nq|now exists d]|]. split; [intro X; apply Na, Al; exact X|].
      eapply folded_ext; [|exact Fo]. intros. apply Al.
    + intros (Nq & S & Na & Fo). apply (Th q Nq) in S as [d N]. exists (q, (n, names, d)). split; [reflexivity|].
      apply (top_rows_iff t D). fold there. split; [exact Nq|]. split; [exact N|]. split; [intro X; apply Na, Al; exact X|].
      eapply folded_ext; [|exact Fo]. intros. symmetry. apply Al.
  - rewrite Q. do 3 f_equal.
    assert (Nt : named t).
    { apply (nodes_named t []). intros q d N. apply H in N as [_ Hd]. exact (h_name _ _ _ Hd). }
    rewrite (Tree_crows prepender); [|intros d d' Ed; unfold prepender; now rewrite Ed|exact Nt]. rewrite add_lines_nil.
    + f_equal. rewrite map_map. apply map_ext_in. intros [q [[n names] d]] I. apply (top_rows_iff t D) in I as (_ & N & _).
      apply H in N as [_ Hd]. unfold cline, prepender, displayableQuantity, column. rewrite pad_left_flush. cbn [fst snd].
      rewrite (h_quantity _ _ _ Hd), (h_commodity _ _ _ Hd), <- !app_assoc. reflexivity.
    + rewrite Forall_forall. intros l I. apply in_map_iff in I as ([q [[n names] d]] & <- & _). unfold cline.
      pose proof (prepender_nonempty d). destruct (prepender d); [contradiction|discriminate].
Qed.

(** ** C24 *)
Lemma taken_balanced : forall E O us sel, picks E O [] us sel -> (forall u, In u us -> zero64 (total (t_postings (u_txn u)))) ->
  zero64 (total (taken sel)).
Proof.
  intros E O us sel P. induction P as [|u us sel No P IH|u us sel ps W Ht Pm Wh P IH]; intro H.
  - reflexivity.
  - apply IH. intros. apply H. now right.
  - unfold taken. cbn [flat_map snd]. rewrite total_app. specialize (H u (or_introl eq_refl)) as Hu.
    rewrite Wh by auto. unfold zero64 in *. specialize (IH (fun u I => H u (or_intror I))). fold (taken sel).
    rewrite Z.add_mod, Hu, IH by discriminate. reflexivity.
Qed.

Theorem C24_total : forall E O, sane_clock E -> orders E -> o_args O = [] -> r_status (balance_cmd E O) = SOk ->
  exists above, r_out (balance_cmd E O) = above ++ [lit "--------------------" ++ [10]; lit "                0.00" ++ [10]].
Proof.
  intros E O C Or A Ok. assert (F : filters_for E (o_args O) []) by (rewrite A; split; constructor).
  destruct (C61_balance E O [] C Or F) as [_ K]. destruct (K Ok) as (sel & t & P & _ & _ & Q).
  assert (Z : wrap64 (total (taken sel)) = 0).
  { assert (X : zero64 (total (taken sel))).
    { eapply taken_balanced; [exact P|]. intros u I. apply txns_in in I. pose proof (stream_balanced E O) as B. rewrite Forall_forall in B.
      apply B in I. apply I. }
    unfold wrap64. unfold zero64 in X. rewrite Z.add_mod, X by discriminate. reflexivity. }
  rewrite Z in Q. rewrite Q. eexists. 
  match goal with |- ?a ++ [?x; ?y; ?z] = _ => exact (app_assoc a [x] [y; z]) end.
Qed.

Example C61_example :
  let E := env0 files3 in let O := opts3 (lit "2021-03-02") [] false [] in
  sane_clock E /\ orders E /\ filters_for E (o_args O) [] /\
  balance_cmd E O = Outcome
    [lit "               $5.00  x" ++ [10] ++ lit "              $-2.00  y" ++ [10] ++ lit "              $-3.00  z" ++ [10];
     lit "--------------------" ++ [10]; lit "                0.00" ++ [10]] SOk.
Proof.
  intros E O. split; [apply env0_clock|]. split; [apply env0_orders|]. split; [apply makeFilters_spec; reflexivity|].
  vm_compute. reflexivity.
Qed.
(** x is alone under A: its line carries both names. *)
Definition text_deep : str :=
  lit "2021-03-01 A" ++ [10] ++ lit "    A:x:1    $2" ++ [10] ++ lit "    A:x:2    $1" ++ [10] ++ lit "    B:y:z    $-3" ++ [10].
Example C61_collapsed_example : let E := env1 [(lit "j", text_deep)] in let O := Opts (lit "j") [] [] false [] false true false in
  sane_clock E /\ orders E /\ filters_for E (o_args O) [] /\ o_flatten O = false /\ o_collapse O = true /\
  balance_cmd E O = Outcome
    [lit "               $3.00  A:x" ++ [10] ++ lit "               $2.00    1" ++ [10] ++ lit "               $1.00    2" ++ [10] ++
     lit "              $-3.00  B:y:z" ++ [10];
     lit "--------------------" ++ [10]; lit "                0.00" ++ [10]] SOk.
Proof.
  intros E O. split; [apply env0_clock|]. split; [apply env0_orders|]. split; [apply makeFilters_spec; reflexivity|].
  split; [reflexivity|]. split; [reflexivity|]. vm_compute. reflexivity.
Qed.
Example C24_example : let E := env0 files3 in let O := opts3 (lit "2021-03-02") [] false [] in
  o_args O = [] /\ r_status (balance_cmd E O) = SOk.
Proof. split; [reflexivity|vm_compute; reflexivity]. Qed.

(** With a filter the total need not be zero, and complaints are printed first. *)
Definition text_mixed : str :=
  lit "2021-03-01 A" ++ [10] ++ lit "    A:x    $2" ++ [10] ++ lit "    A:y    EUR1" ++ [10] ++ lit "    B    $-3" ++ [10].
Example C61_mixed_example :
  balance_cmd (env1 [(lit "j", text_mixed)]) (opts3 [] [] false [lit "A:x"; lit "A:y"]) = Outcome
    [lit "unhandled addition of unmatched commodities: '$' and 'EUR'" ++ [10];
     lit "unhandled addition of unmatched commodities: '$' and 'EUR'" ++ [10];
     lit "               $3.00  A" ++ [10] ++ lit "               $2.00    x" ++ [10] ++ lit "             EUR1.00    y" ++ [10];
     lit "--------------------" ++ [10]; lit "                3.00" ++ [10]] SOk.
Proof. vm_compute. reflexivity. Qed.

(** ** C57 *)
Lemma picks_range : forall E O us sel, picks E O [] us sel -> in_range E O us (map fst sel) /\ taken sel = flat_map (fun u => t_postings (u_txn u)) (map fst sel).
Proof.
  intros E O us sel P. induction P as [|u us sel No P [R T]|u us sel ps W Ht Pm Wh P [R T]].
  - split; [constructor|reflexivity].
  - split; [|exact T]. destruct No as [No|No]; [apply RangeOut; auto|discriminate].
  - split; [apply RangeIn; auto|]. unfold taken in *. cbn [flat_map map fst snd]. rewrite Wh by auto. now rewrite T.
Qed.
Lemma range_fun : forall E O us a b, in_range E O us a -> in_range E O us b -> a = b.
Proof.
  intros E O us a b H. revert b. induction H as [|u us a No H IH|u us a W H IH]; intros b H'; inversion H'; subst; try contradiction; [reflexivity|auto|].
  f_equal. auto.
Qed.

Theorem C57_accounts_in_tree : forall E O s, sane_clock E -> orders E -> o_args O = [] -> balance_run E O [] = (s, SOk) ->
  exists names, accounts_cmd E O = Outcome (lines names) SOk /\
    (forall a, In a names <-> exists d, node (j_root (h_data s)) (split 58 a) d /\ a_postings d <> []) /\
    (forall q d, node (j_root (h_data s)) q d -> q <> [] -> exists a, In a names /\ prefix q (split 58 a)).
Proof.
  intros E O s C Or A R. assert (F : filters_for E (o_args O) []) by (rewrite A; split; constructor).
  pose proof (balance_run_spec E O [] C Or) as K. rewrite R in K. destruct K as (Rd & sel & P & _ & B & _).
  destruct (C40_accounts E O [] C Or F) as [K _]. destruct (K Rd) as (sel' & names & Rg & Q & _ & N).
  destruct (picks_range _ _ _ _ P) as [Rg' T]. pose proof (range_fun _ _ _ _ _ Rg Rg') as Es. subst sel'.
  assert (U : forall a, In a names <-> exists p, In p (taken sel) /\ po_account p = a).
  { intro a. rewrite N, T. unfold uses. split.
    - intros [(u & p & I & Ip & Ea) _]. exists p. split; [apply in_flat_map; eauto|exact Ea].
    - intros (p & I & Ea). apply in_flat_map in I as (u & I & Ip). split; [eauto|auto]. }
  exists names. split; [exact Q|]. split.
  - intro a. rewrite U. split.
    + intros (p & I & <-).
      assert (X : exists d, node (j_root (h_data s)) (components p) d).
      { destruct (data_at (components p) (j_root (h_data s))) as [d|] eqn:D; [exists d; apply node_data_at; auto; apply (b_distinct _ _ B)|].
        destruct (b_none _ _ B _ D) as [_ X]. assert (Y : In p (filter (below (components p)) (taken sel))).
        { apply filter_In. split; [exact I|]. apply prefixb_refl. }
        rewrite X in Y. destruct Y. }
      destruct X as [d X]. exists d. split; [exact X|]. apply (built_node _ _ _ _ B) in X as [_ X]. rewrite (h_postings _ _ _ X).
      intro Y. assert (Z : In p (filter (here (components p)) (taken sel))).
      { apply filter_In. split; [exact I|]. unfold here. destruct (list_str_dec _ _); [reflexivity|contradiction]. }
      rewrite Y in Z. destruct Z.
    + intros (d & X & Np). apply (built_node _ _ _ _ B) in X as [_ X]. rewrite (h_postings _ _ _ X) in Np.
      destruct (filter (here (split 58 a)) (taken sel)) as [|p l] eqn:Fl; [contradiction|].
      assert (I : In p (filter (here (split 58 a)) (taken sel))) by (rewrite Fl; now left).
      apply filter_In in I as [I Hp]. exists p. split; [exact I|]. unfold here in Hp. destruct (list_str_dec _ _) as [Es|]; [|discriminate].
      unfold components in Es. rewrite <- (join_split 58 a), Es. symmetry. apply join_split.
  - intros q d X Nq. apply (built_node _ _ _ _ B) in X as [[X|(p & I & Pq)] _]; [contradiction|]. exists (po_account p). split; [apply U; eauto|exact Pq].
Qed.

Example C57_example : snd (balance_run (env0 files3) (opts3 [] [] false []) []) = SOk /\
  accounts_cmd (env0 files3) (opts3 [] [] false []) = Outcome (lines [lit "x"; lit "y"; lit "z"]) SOk.
Proof. split; vm_compute; reflexivity. Qed.

(** ** C26: iteration order *)

(** The tree without the postings it lists. *)
Definition stripped (d : adata) : adata := AD (a_name d) (a_path d) (a_amount d) [].
Fixpoint bare (a : account) : account :=
  let 'Acc d ch := a in Acc (stripped d) (map (fun kc => (fst kc, bare (snd kc))) ch).

Lemma bare_fold : forall C (t : account -> C -> C) ch (c : C), (forall x c, In x ch -> t (bare (snd x)) c = t (snd x) c) ->
  fold_left (fun c (kf : str * (C -> C)) => snd kf c) (sort_by_key (map (fun kc => (fst kc, t (snd kc))) (map (fun kc => (fst kc, bare (snd kc))) ch))) c =
  fold_left (fun c (kf : str * (C -> C)) => snd kf c) (sort_by_key (map (fun kc => (fst kc, t (snd kc))) ch)) c.
Proof.
  intros C t ch c H. rewrite !fold_children, (sort_key_map _ _ (fun kc => bare (snd kc))), fold_map. cbn [snd].
  apply fold_ext_in. intros a b I. apply H. eapply Permutation_in; [apply sort_key_perm|exact I].
Qed.

Lemma tree_bare : forall col a c, tree prepender col (bare a) c = tree prepender col a c.
Proof.
  intros col a. induction a as [d ch IH] using account_ind'. intro c. rewrite Forall_forall in IH.
  cbn [bare tree]. rewrite !one_length, map_length.
  destruct (c_isOnlyChild c && col); rewrite (bare_fold _ (tree prepender col)) by (intros x c0 I; now apply IH); reflexivity.
Qed.
Lemma Tree_bare : forall col a, Tree prepender col (bare a) = Tree prepender col a.
Proof.
  intros col [d ch]. unfold Tree. cbn [bare acc_children]. rewrite (bare_fold _ (tree prepender col)); [reflexivity|]. intros. apply tree_bare.
Qed.
Lemma flat_bare : forall a s, flattenedTree prepender (bare a) s = flattenedTree prepender a s.
Proof.
  intro a. induction a as [d ch IH] using account_ind'. intro s. rewrite Forall_forall in IH. cbn [bare flattenedTree].
  destruct ch as [|x ch]; [reflexivity|].
  change (match map (fun kc => (fst kc, bare (snd kc))) (x :: ch) with [] => ?a | _ :: _ => ?b end) with b.
  rewrite (bare_fold _ (flattenedTree prepender)); [reflexivity|]. intros y c I. now apply IH.
Qed.
Lemma bare_distinct : forall a, distinct a -> distinct (bare a).
Proof.
  intro a. induction a as [d ch IH] using account_ind'. intro D. rewrite Forall_forall in IH. inversion D as [? ? N Dc]; subst.
  cbn [bare]. constructor.
  - rewrite map_map. cbn [fst]. exact N.
  - intros k c I. apply in_map_iff in I as ([k' c'] & E & I). injection E as <- <-. apply (IH (k', c') I). eapply Dc; eauto.
Qed.
Lemma bare_node : forall a q x, node (bare a) q x <-> exists d, node a q d /\ x = stripped d.
Proof.
  intro a. induction a as [d ch IH] using account_ind'. intros q x. rewrite Forall_forall in IH. cbn [bare]. destruct q as [|k q].
  - rewrite node_nil. cbn. split.
    + intros ->. exists d. split; [constructor|reflexivity].
    + intros (d' & N & ->). apply node_nil in N. cbn in N. now subst.
  - rewrite node_cons. split.
    + intros (c & I & N). apply in_map_iff in I as ([k' c'] & E & I). injection E as -> <-. apply (IH _ I) in N as (d' & N & ->).
      exists d'. split; [econstructor; eauto|reflexivity].
    + intros (d' & N & ->). apply node_cons in N as (c & I & N). exists (bare c). split; [apply in_map_iff; exists (k, c); auto|].
      apply (IH _ I). eauto.
Qed.

Lemma report_same : forall O a b, distinct a -> distinct b ->
  (forall q x, (exists d, node a q d /\ x = stripped d) <-> (exists d, node b q d /\ x = stripped d)) -> report O a = report O b.
Proof.
  intros O a b Da Db H. destruct (reports_same prepender (bare a) (bare b)) as [T Fl]; [now apply bare_distinct|now apply bare_distinct| |].
  { intros q x. rewrite !bare_node. apply H. }
  unfold report. rewrite <- (Tree_bare _ a), <- (Tree_bare _ b), T. unfold FlattenedTree in *. rewrite !flat_bare in Fl. rewrite Fl.
  assert (X : stripped (acc_data a) = stripped (acc_data b)).
  { destruct (H [] (stripped (acc_data a))) as [[d [N X]] _]; [exists (acc_data a); split; [now apply node_nil|reflexivity]|].
    apply node_nil in N. now subst d. }
  injection X as _ _ X. now rewrite X.
Qed.

(** The same tree, for postings in another order in one commodity. *)
Definition uniform (c : str) (ps : list posting) : Prop := Forall (fun p => po_amount p <> None -> commodity_of p = c) ps.
Lemma uniform_first : forall c ps, Forall priced ps -> uniform c ps -> first_commodity ps = match ps with [] => [] | _ => c end.
Proof.
  intros c ps. induction ps as [|p ps IH]; intros F U; [reflexivity|]. inversion F; subst. inversion U; subst.
  unfold first_commodity, named_commodities in *. cbn [map filter]. rewrite H3 by exact H1. destruct c; [|reflexivity].
  specialize (IH H2 H4). rewrite IH. now destruct ps.
Qed.
Lemma holds_perm : forall c ps ps' q d d', Forall priced ps -> uniform c ps -> Permutation ps ps' -> holds ps q d -> holds ps' q d' ->
  stripped d = stripped d'.
Proof.
  intros c ps ps' q [n p [cm x] po] [n' p' [cm' x'] po'] F U P [Q Cm Po N Pa] [Q' Cm' Po' N' Pa']. cbn in *. unfold stripped. cbn.
  assert (F1 : forall l, Forall priced l -> Forall priced (filter (below q) l)).
  { intros l H. rewrite Forall_forall in *. intros z I. apply filter_In in I as [I _]. auto. }
  assert (U1 : forall l, uniform c l -> uniform c (filter (below q) l)).
  { intros l H. unfold uniform in *. rewrite Forall_forall in *. intros z I. apply filter_In in I as [I _]. auto. }
  pose proof (filter_perm _ (below q) _ _ P) as Pf.
  assert (F' : Forall priced ps') by (eapply Permutation_Forall; eauto).
  assert (U' : uniform c ps') by (eapply Permutation_Forall; eauto).
  rewrite (uniform_first c) in Cm, Cm' by auto.
  assert (X : cm = cm').
  { subst cm cm'. destruct (filter (below q) ps) as [|a l]; [apply Permutation_nil in Pf; now rewrite Pf|].
    destruct (filter (below q) ps') as [|b l']; [symmetry in Pf; apply Permutation_nil in Pf; discriminate|reflexivity]. }
  assert (Y : x = x') by (rewrite Q, Q'; f_equal; now apply total_perm). congruence.
Qed.
Lemma shown_perm : forall z ps ps' q, Permutation ps ps' -> shown z ps q -> shown z ps' q.
Proof.
  intros z ps ps' q P [(p & I & K) H]. split; [exists p; split; [eapply Permutation_in; eauto|exact K]|]. destruct H as [H|H]; [auto|].
  right. intros r N Pr. rewrite <- (total_perm _ _ (filter_perm _ (below r) _ _ P)). auto.
Qed.

Lemma uniform_perm : forall c a b, Permutation a b -> uniform c a -> uniform c b.
Proof. intros. eapply Permutation_Forall; eauto. Qed.

Lemma silent : forall c ps p q, Forall priced ps -> uniform c ps -> po_amount p <> None -> commodity_of p = c ->
  prefix q (components p) -> complaint ps p q = [].
Proof.
  intros c ps p q F U A Hc Pq. unfold complaint. rewrite (uniform_first c).
  - rewrite filter_app. cbn [filter]. replace (below q p) with true by (symmetry; now apply prefixb_iff).
    destruct (filter (below q) ps); cbn; rewrite Hc, str_eqb_refl; reflexivity.
  - rewrite Forall_forall in *. intros z I. apply filter_In in I as [I _]. apply in_app_iff in I as [I|[<-|[]]]; auto.
  - unfold uniform in *. rewrite Forall_forall in *. intros z I. apply filter_In in I as [I _]. apply in_app_iff in I as [I|[<-|[]]]; auto.
Qed.

Lemma add_uniform : forall c ps ps0 j, built ps0 (j_root j) -> Forall priced ps0 -> uniform c ps0 -> uniform c ps ->
  let '(j', out, r) := j_addPostings j ps in
  out = [] /\ ((r = SOk /\ Forall priced ps /\ built (ps0 ++ ps) (j_root j')) \/ (r = SPanic /\ ~ Forall priced ps)).
Proof.
  intros c ps ps0 j B F U Up. pose proof (add_all ps ps0 j B) as K.
  assert (X : snd (fst (j_addPostings j ps)) = []).
  { clear K. revert ps0 j B F U Up. induction ps as [|p ps IH]; intros ps0 j B F U Up; [reflexivity|]. cbn [j_addPostings].
    unfold j_addPosting. destruct (wireUpPosting (j_root j) p) as [[r o]|] eqn:W; [|reflexivity].
    destruct (po_amount p) as [am|] eqn:A.
    2: { unfold wireUpPosting in W. rewrite A in W. destruct (findOrCreateAccount _ _); discriminate. }
    inversion Up as [|? ? Hp Up']; subst. assert (Np : po_amount p <> None) by congruence. specialize (Hp Np).
    assert (Ho : o = []).
    { rewrite (wire_out _ _ _ _ _ _ B A W). assert (L : forall l, (forall q, In q l -> prefix q (components p)) -> flat_map (complaint ps0 p) l = []).
      { induction l as [|q l IHl]; intro H; [reflexivity|]. cbn. rewrite (silent c); auto; [|apply H; now left]. apply IHl. intros. apply H. now right. }
      apply L. intros q I. now apply up_prefix. }
    specialize (IH (ps0 ++ [p]) (Jrn (j_txns j) (j_ptxns j) (j_paths j) r) (built_add _ _ _ _ _ B W)).
    assert (F1 : Forall priced (ps0 ++ [p])) by (apply Forall_app; auto).
    assert (U1 : uniform c (ps0 ++ [p])) by (apply Forall_app; split; [exact U|constructor; auto]).
    specialize (IH F1 U1 Up'). destruct (j_addPostings _ ps) as [[j2 o2] st]. cbn in *. now rewrite Ho, IH. }
  destruct (j_addPostings j ps) as [[j' out] r]. cbn in X. split; [exact X|].
  destruct r; [left|right..]; [|destruct K as [K1 K2]; try discriminate; auto..]. destruct K as (K1 & K2 & _). auto.
Qed.

Definition related (c : str) (s s' : hstate journal) : Prop :=
  h_n s = h_n s' /\ h_out s = h_out s' /\
  exists ps ps', Permutation ps ps' /\ Forall priced ps /\ uniform c ps /\ built ps (j_root (h_data s)) /\ built ps' (j_root (h_data s')).

Definition goodb (c : str) (t : transaction) : bool :=
  forallb (fun p => match po_amount p with None => true | Some a => str_eqb (am_commodity a) c end) (t_postings t).
Lemma goodb_iff : forall c t, goodb c t = true <-> uniform c (t_postings t).
Proof.
  intros c t. unfold goodb, uniform. rewrite forallb_forall, Forall_forall. split; intros H p I; specialize (H p I).
  - intro N. unfold commodity_of. destruct (po_amount p); [|contradiction]. now apply str_eqb_eq.
  - unfold commodity_of in H. destruct (po_amount p); [|reflexivity]. apply str_eqb_eq. now apply H.
Qed.

Section Orders.
Variable E : env.
Variable O : opts.
Variable fs : list filter_.
Variable c : str.
Variable o : nat -> forall A, list A -> list A.
Variable o' : list str -> forall A, list A -> list A.
Notation E' := (with_orders E o o').
Hypothesis C : sane_clock E.
Hypothesis Or : orders E.
Hypothesis Or' : orders E'.

(** What the filters let through, up to order. *)
Lemma check_orders : forall n t,
  match checkAgainstFilters E O fs n t, checkAgainstFilters E' O fs n t with
  | POk (m, ps), POk (m', ps') => m = m' /\ Permutation ps ps' /\ (forall p, In p ps -> In p (t_postings t))
  | PErr e, PErr e' => e = e'
  | PPanic, PPanic => True
  | _, _ => False
  end.
Proof.
  intros n t. unfold checkAgainstFilters. change (withinDateRange E' O n t) with (withinDateRange E O n t).
  destruct (withinDateRange E O n t) as [[|]|e|]; auto; [|split; [reflexivity|split; [constructor|intros ? []]]].
  destruct fs as [|f fs']; [split; [reflexivity|split; [reflexivity|auto]]|].
  assert (M : forall l acc, match_filters E' l t acc = match_filters E l t acc).
  { induction l as [|g l IH]; intro acc; [reflexivity|]. cbn [match_filters]. change (e_re_match E') with (e_re_match E).
    destruct (matchesTransactionHow (e_re_match E) g t) as [[a b] mp]. destruct (a || b); [reflexivity|apply IH]. }
  rewrite M. destruct (match_filters E (f :: fs') t []) as [is|]; [|split; [reflexivity|split; [reflexivity|auto]]].
  split; [reflexivity|]. split.
  - apply pick_perm. etransitivity; [apply (proj1 Or)|]. symmetry. apply (proj1 Or').
  - intros p I. unfold pick in I. apply in_flat_map in I as (i & _ & I). destruct (nth_error (t_postings t) i) eqn:N; [|destruct I].
    destruct I as [<-|[]]. eapply nth_error_In; eauto.
Qed.

Lemma step_orders : forall s s' t p, related c s s' -> goodb c t = true ->
  let '(s1, r) := checked E O fs balance_handler s t p in
  let '(s1', r') := checked E' O fs balance_handler s' t p in
  r = r' /\ h_out s1 = h_out s1' /\ (r = SOk -> related c s1 s1').
Proof.
  intros s s' t p (Hn & Ho & ps0 & ps0' & P0 & F0 & U0 & B0 & B0') G. apply goodb_iff in G. unfold checked. rewrite <- Hn.
  pose proof (check_orders (h_n s) t) as K.
  destruct (checkAgainstFilters E O fs (h_n s) t) as [[m ps]|e|]; destruct (checkAgainstFilters E' O fs (h_n s) t) as [[m' ps']|e'|]; try contradiction.
  - destruct K as (<- & P & Sub).
    assert (U : uniform c ps). { unfold uniform in *. rewrite Forall_forall in *. auto. }
    assert (U' : uniform c ps') by (eapply uniform_perm; eauto).
    assert (X : is_nil ps = is_nil ps').
    { destruct ps, ps'; auto; [apply Permutation_nil in P|symmetry in P; apply Permutation_nil in P]; discriminate. }
    rewrite <- X. destruct (negb m && is_nil ps).
    + split; [reflexivity|]. split; [exact Ho|]. intros _. split; [reflexivity|]. split; [exact Ho|]. exists ps0, ps0'. auto.
    + unfold balance_handler. cbn [h_data h_n h_out].
      pose proof (add_uniform c ps ps0 (j_addTransaction (h_data s) t p) B0 F0 U0 U) as A.
      assert (F0' : Forall priced ps0') by (eapply Permutation_Forall; eauto).
      assert (U0' : uniform c ps0') by (eapply uniform_perm; eauto).
      pose proof (add_uniform c ps' ps0' (j_addTransaction (h_data s') t p) B0' F0' U0' U') as A'.
      destruct (j_addPostings _ ps) as [[j1 o1] r1]. destruct (j_addPostings _ ps') as [[j1' o1'] r1'].
      destruct A as [-> A]. destruct A' as [-> A'].
      destruct A as [(-> & Fp & B1)|(-> & Np)]; destruct A' as [(-> & Fp' & B1')|(-> & Np')].
      * split; [reflexivity|]. cbn. rewrite Ho. split; [reflexivity|]. intros _. split; [reflexivity|]. split; [reflexivity|].
        exists (ps0 ++ ps), (ps0' ++ ps'). split; [now apply Permutation_app|]. split; [apply Forall_app; auto|].
        split; [apply Forall_app; auto|]. auto.
      * exfalso. apply Np'. eapply Permutation_Forall; eauto.
      * exfalso. apply Np. eapply Permutation_Forall; [symmetry|]; eauto.
      * split; [reflexivity|]. cbn. rewrite Ho. split; [reflexivity|]. discriminate.
  - subst e'. split; [reflexivity|]. split; [exact Ho|]. discriminate.
  - split; [reflexivity|]. split; [exact Ho|]. discriminate.
Qed.

Definition watched (h : hstate journal * bool) (t : transaction) (p : str) : (hstate journal * bool) * status :=
  if goodb c t then let '(s, r) := checked E O fs balance_handler (fst h) t p in ((s, snd h), r) else ((fst h, false), SFatal).
Definition watched_ph (h : hstate journal * bool) (pt : ptransaction) (p : str) : (hstate journal * bool) * status :=
  let '(s, r) := balance_ph (fst h) pt p in ((s, snd h), r).

Lemma watched_good : forall evs h, snd h = true -> (forall t p, In (ETxn t p) evs -> goodb c t = true) ->
  snd (fst (deliver_all (Some watched) (Some watched_ph) h evs)) = true.
Proof.
  induction evs as [|[t p|pt p] evs IH]; intros h H G; [exact H| |]; cbn [deliver_all deliver].
  - unfold watched at 1. rewrite (G t p) by now left. destruct (checked _ _ _ _ _ _ _) as [s [| | | |]]; try exact H.
    apply IH; [exact H|]. intros. eapply G. right. eauto.
  - unfold watched_ph at 1. destruct (balance_ph (fst h) pt p) as [s [| | | |]]; try exact H.
    apply IH; [exact H|]. intros. eapply G. right. eauto.
Qed.

Lemma balance_run_orders : (forall t p, In (ETxn t p) (fst (stream E O)) -> goodb c t = true) ->
  let '(s, r) := balance_run E O fs in
  let '(s', r') := balance_run E' O fs in
  r = r' /\ h_out s = h_out s' /\ (r = SOk -> related c s s').
Proof.
  intro G. unfold balance_run.
  set (s0 := HS 0 [] newJournal).
  assert (NE : snd (fst (parse_cmd E O (Some watched) (Some watched_ph) (s0, true))) = true).
  { pose proof (parse_cmd_fold E O _ (Some watched) (Some watched_ph) (s0, true)) as F.
    pose proof (watched_good (fst (stream E O)) (s0, true) eq_refl G) as W. destruct (stream E O) as [evs st]. cbn [fst] in W.
    destruct (deliver_all _ _ _ evs) as [s' r']. destruct F as [-> _]. exact W. }
  assert (R0 : related c s0 s0).
  { split; [reflexivity|]. split; [reflexivity|]. exists [], []. split; [constructor|]. split; [constructor|]. split; [constructor|].
    split; apply built_new. }
  assert (A : agree (hstate journal) (hstate journal * bool) (fun s h => s = fst h) (fun s h => s = fst h) (fun h => snd h = false)
     (parse_cmd E O (Some (checked E O fs balance_handler)) (Some balance_ph) s0) (parse_cmd E O (Some watched) (Some watched_ph) (s0, true))).
  { unfold parse_cmd. destruct (match o_file O with [] => e_ledger_file E | z :: l => Some (z :: l) end) as [path|]; [|left; cbn; auto].
    destruct (e_fs E path) as [f|]; [|left; cbn; auto].
    apply parse_agree; auto.
    - intros s h t p ->. unfold run_t, watched. destruct (goodb c t).
      + destruct (checked _ _ _ _ _ _ _) as [s1 r]. left. cbn. auto.
      + right. cbn. split; [discriminate|reflexivity].
    - intros s h t p ->. unfold run_p, watched_ph. destruct (balance_ph _ _ _) as [s1 r]. left. cbn. auto. }
  assert (A' : agree (hstate journal) (hstate journal * bool) (fun s h => related c (fst h) s) (fun s h => h_out (fst h) = h_out s) (fun h => snd h = false)
     (parse_cmd E' O (Some (checked E' O fs balance_handler)) (Some balance_ph) s0) (parse_cmd E O (Some watched) (Some watched_ph) (s0, true))).
  { unfold parse_cmd. change (e_ledger_file E') with (e_ledger_file E).
    destruct (match o_file O with [] => e_ledger_file E | z :: l => Some (z :: l) end) as [path|]; [|left; cbn; auto].
    change (e_fs E' path) with (e_fs E path). destruct (e_fs E path) as [f|]; [|left; cbn; auto].
    change (e_fs E') with (e_fs E). change (e_unicode E') with (e_unicode E). change (e_depth E') with (e_depth E).
    apply parse_agree; auto.
    - intros s h (_ & H & _). exact H.
    - intros s h t p R. unfold run_t, watched. destruct (goodb c t) eqn:Gt.
      + pose proof (step_orders (fst h) s t p R Gt) as K. destruct (checked E O _ _ _ _ _) as [s1 r]. destruct (checked E' O _ _ _ _ _) as [s1' r'].
        destruct K as (-> & Ho & K). left. cbn. auto.
      + right. cbn. split; [discriminate|reflexivity].
    - intros s h pt p R. unfold run_p, watched_ph. destruct R as (Hn & Ho & ps & ps' & K).
      unfold balance_ph, j_addPeriodicTransaction, pt_run.
      destruct (is_pnone (pe_interval (pt_period pt))); left; cbn; rewrite ?Ho, ?Hn; (split; [reflexivity|]; split; [reflexivity|]);
        intros _; (split; [reflexivity|]); (split; [reflexivity|]); exists ps, ps'; exact K. }
  destruct (parse_cmd E O (Some (checked E O fs balance_handler)) (Some balance_ph) s0) as [s r].
  destruct (parse_cmd E' O (Some (checked E' O fs balance_handler)) (Some balance_ph) s0) as [s' r'].
  destruct (parse_cmd E O (Some watched) (Some watched_ph) (s0, true)) as [h rh]. cbn [fst snd] in *.
  destruct A as [(Q & X & Y)|[_ X]]; [|cbn in X; congruence]. destruct A' as [(Q' & X' & Y')|[_ X']]; [|cbn in X'; congruence].
  cbn [fst snd] in *. subst s. split; [congruence|]. split; [exact X'|]. intro K. apply Y'. congruence.
Qed.
End Orders.

(** With one commodity throughout, nothing depends on the orders in which maps
    are iterated. *)
Theorem C26_one_commodity_partial : forall E O o o' c, sane_clock E -> orders E -> orders (with_orders E o o') ->
  (forall t p, In (ETxn t p) (fst (stream E O)) -> Forall (fun p => po_amount p <> None -> commodity_of p = c) (t_postings t)) ->
  balance_cmd (with_orders E o o') O = balance_cmd E O.
Proof.
  intros E O o o' c C Or Or' U. unfold balance_cmd, with_filters.
  assert (M : forall args, makeFilters (with_orders E o o') args = makeFilters E args).
  { induction args as [|a args IH]; [reflexivity|]. cbn [makeFilters]. rewrite IH. reflexivity. }
  rewrite M. destruct (makeFilters E (o_args O)) as [fs|e|]; try reflexivity.
  pose proof (balance_run_orders E O fs c o o' Or Or') as K.
  destruct (balance_run E O fs) as [s r]. destruct (balance_run (with_orders E o o') O fs) as [s' r'].
  destruct K as (-> & Ho & K); [intros t p I; apply goodb_iff; eapply U; eauto|].
  unfold finish. destruct r'; try (now rewrite Ho). destruct (K eq_refl) as (_ & _ & ps & ps' & P & F & Un & B & B').
  rewrite Ho. do 2 f_equal. destruct (prepared E O ps _ Or B) as [D H]. destruct (prepared (with_orders E o o') O ps' _ Or' B') as [D' H'].
  assert (F' : Forall priced ps') by (eapply Permutation_Forall; eauto).
  assert (Un' : uniform c ps') by (eapply uniform_perm; eauto).
  assert (Data : forall l q, exists d, holds l q d).
  { intros l q. exists (AD (last q (lit "_root_")) (join [58] (visible q))
        (Amount (first_commodity (filter (below q) l)) (wrap64 (total (filter (below q) l)))) (filter (here q) l)). split; reflexivity. }
  symmetry. apply report_same; auto. intros q x. split.
  - intros (d & N & ->). apply H in N as [N Hd]. destruct (Data ps' q) as [d' Hd']. exists d'. split.
    + apply H'. split; [|exact Hd']. destruct N as [N|N]; [auto|right; eapply shown_perm; eauto].
    + eapply holds_perm; [exact F|exact Un|exact P|exact Hd|exact Hd'].
  - intros (d & N & ->). apply H' in N as [N Hd]. destruct (Data ps q) as [d' Hd']. exists d'. split.
    + apply H. split; [|exact Hd']. destruct N as [N|N]; [auto|right; eapply shown_perm; [symmetry|]; eauto].
    + eapply holds_perm; [exact F'|exact Un'|symmetry; exact P|exact Hd|exact Hd'].
Qed.

(** Nor does it without filters, whatever the commodities. *)
Theorem C26_unfiltered_partial : forall E O o o', sane_clock E -> orders E -> orders (with_orders E o o') -> o_args O = [] ->
  balance_cmd (with_orders E o o') O = balance_cmd E O.
Proof.
  intros E O o o' C Or Or' A.
  assert (F : filters_for E (o_args O) []) by (rewrite A; split; constructor).
  assert (F' : filters_for (with_orders E o o') (o_args O) []) by (rewrite A; split; constructor).
  rewrite (balance_cmd_run _ _ _ F), (balance_cmd_run _ _ _ F').
  assert (Q : balance_run (with_orders E o o') O [] = balance_run E O []).
  { unfold balance_run, parse_cmd. change (e_ledger_file (with_orders E o o')) with (e_ledger_file E).
    destruct (match o_file O with [] => e_ledger_file E | z :: l => Some (z :: l) end) as [path|]; [|reflexivity].
    change (e_fs (with_orders E o o')) with (e_fs E). destruct (e_fs E path) as [f|]; [|reflexivity].
    apply parse_ext; reflexivity. }
  rewrite Q. pose proof (balance_run_spec E O [] C Or) as K. unfold finish. destruct (balance_run E O []) as [s [| | | |]]; try reflexivity.
  destruct K as (_ & sel & _ & _ & B & _). do 2 f_equal. destruct (prepared E O _ _ Or B) as [D H].
  destruct (prepared (with_orders E o o') O _ _ Or' B) as [D' H']. apply report_same; auto. intros q x.
  split; intros (d & N & ->); exists d; (split; [|reflexivity]); [apply H, H', N|apply H', H, N].
Qed.

Example C26_example : let E := env1 files3 in let E' := with_orders E (fun _ _ l => rev l) (fun _ _ l => rev l) in
  let O := opts3 [] [] false [lit "x"; lit "z"] in
  orders E' /\ (forall t p, In (ETxn t p) (fst (stream E O)) -> Forall (fun p => po_amount p <> None -> commodity_of p = lit "$") (t_postings t)) /\
  r_status (balance_cmd E' O) = SOk /\ length (fst (stream E O)) = 3%nat.
Proof.
  intros E E' O. split; [split; intros; symmetry; apply Permutation_rev|]. split; [|split; vm_compute; reflexivity].
  assert (X : Forall (fun ev => match ev with ETxn t _ => Forall (fun p => po_amount p <> None -> commodity_of p = lit "$") (t_postings t) | _ => True end) (fst (stream E O))).
  { vm_compute. repeat constructor. }
  intros t p I. rewrite Forall_forall in X. exact (X _ I).
Qed.

(** With filters and several commodities the text depends on the order. *)
Theorem C26_deterministic_refuted : exists E o o' O, sane_clock E /\ orders E /\ orders (with_orders E o o') /\
  r_status (balance_cmd E O) = SOk /\ r_status (balance_cmd (with_orders E o o') O) = SOk /\
  balance_cmd (with_orders E o o') O <> balance_cmd E O.
Proof.
  exists (env1 [(lit "j", text_mixed)]), (fun _ _ l => rev l), (fun _ _ l => l), (opts3 [] [] false [lit "A:x"; lit "A:y"]).
  split; [apply env1_clock|]. split; [apply env1_orders|].
  split; [split; intros; [symmetry; apply Permutation_rev|reflexivity]|]. split; [vm_compute; reflexivity|]. split; [vm_compute; reflexivity|].
  vm_compute. discriminate.
Qed.
