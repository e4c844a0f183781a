(** * Properties of the account reports: C27, C28, C29, C30 *)
From Verif Require Import Base BaseFacts GoTime Strconv Display Journal Account Reporting Cmd Spec JournalFacts
  TreeSpec TreeFacts PruneFacts ReportSpec ReportFacts CollapseFacts PropsTree.

(** ** C29 *)

Theorem C29_tree : forall pre a, distinct a -> (forall d, pre d <> []) ->
  exists rows, in_order rows /\ (forall q d, In (q, d) rows <-> q <> [] /\ node a q d) /\
    Tree pre false a = unlines (map (tree_line pre) rows).
Proof.
  intros pre a D N. exists (rows [] a). split; [now apply rows_order|]. split.
  - intros q d. rewrite rows_iff. split.
    + intros (k & r & -> & H). split; [discriminate|exact H].
    + intros [Nq H]. destruct q as [|k r]; [contradiction|]. exists k, r. auto.
  - rewrite Tree_rows. apply add_lines_nil. rewrite Forall_forall. intros l I. apply in_map_iff in I as (r & <- & _).
    unfold tree_line. specialize (N (snd r)). destruct (pre (snd r)); [contradiction|discriminate].
Qed.

Example C29_example : Tree prepender false (tree_of month) = unlines
  [lit "              £-1.80  Assets"; lit "              £-1.50    Bank"; lit "              £-0.30    Cash";
   lit "               £1.80  Expenses"; lit "               £1.50    Food"; lit "               £1.00      Fruit";
   lit "               £0.30    Rent"].
Proof. vm_compute. reflexivity. Qed.

(** ** C30 *)

Theorem C30_collapse : forall pre a, (forall d d', a_amount d = a_amount d' -> pre d = pre d') ->
  Tree pre true a = Tree pre false (merged_below a).
Proof. intros pre a H. now apply Tree_collapse. Qed.

Example C30_example : (forall d d', a_amount d = a_amount d' -> prepender d = prepender d') /\
  Tree prepender true (tree_of (pst (lit "Income:Job:Main:Salary") (-5) :: month)) = unlines
  [lit "              £-1.80  Assets"; lit "              £-1.50    Bank"; lit "              £-0.30    Cash";
   lit "               £1.80  Expenses"; lit "               £1.00    Food:Fruit";
   lit "               £0.30    Rent"; lit "              £-0.05  Income:Job:Main:Salary"].
Proof. split; [intros d d' H; unfold prepender; now rewrite H|vm_compute; reflexivity]. Qed.

(** Without the merged tree: a line for every account that has not exactly one
    account below, with the names of the accounts that share the line. *)
Theorem C30_rows : forall pre a, distinct a -> named a -> (forall d d', a_amount d = a_amount d' -> pre d = pre d') ->
  (forall d, pre d <> []) ->
  let one := alone (fun r => exists x, node a r x) in
  exists rows, StronglySorted path_lt (map fst rows) /\
    (forall q n names d, In (q, (n, names, d)) rows <-> q <> [] /\ node a q d /\ ~ one q /\ folded one q n names) /\
    Tree pre true a = unlines (map (fun r => let '(_, (n, names, d)) := r in pre d ++ rep (2 * n) 32 ++ join [58] names) rows).
Proof.
  intros pre a D N Pa Pn one. exists (top_rows a). split; [now apply top_rows_order|]. split.
  - intros q n names d. now apply top_rows_iff.
  - rewrite (Tree_crows pre Pa a N). apply add_lines_nil. rewrite Forall_forall. intros l I.
    apply in_map_iff in I as ([q [[n names] d]] & <- & _). cbn. specialize (Pn d). destruct (pre d); [contradiction|discriminate].
Qed.

(** ** C27: only accounts all of whose ancestors are non-zero are shown *)

Definition show_zero_tree : list posting :=
  [pst (lit "Assets:Bank") (-150); pst (lit "Assets:Cash") 150].

(** Moving money between two accounts of one parent hides both. *)
Theorem C27_zero_hidden_refuted : exists a q d, distinct a /\ node a q d /\ am_quantity (a_amount d) <> 0 /\
  forall ord, some_order ord -> forall d', ~ node (removeEmptyChildren ord a) q d'.
Proof.
  set (t := tree_of show_zero_tree).
  assert (A : Forall (fun p => po_amount p <> None) show_zero_tree) by (repeat constructor; discriminate).
  pose proof (tree_built _ A) as B. fold t in B. pose proof (b_distinct _ _ B) as D.
  destruct (data_at [lit "Assets"; lit "Cash"] t) as [d|] eqn:E; [|vm_compute in E; discriminate].
  exists t, [lit "Assets"; lit "Cash"], d. split; [exact D|]. split; [now apply node_data_at|]. split.
  - vm_compute in E. inversion E. discriminate.
  - intros ord O d' H. destruct (remove_empty_spec ord t O D) as [_ R]. apply R in H as [_ H].
    destruct (data_at [lit "Assets"] t) as [d0|] eqn:E0; [|vm_compute in E0; discriminate].
    destruct (H [lit "Assets"] d0) as [X|X].
    + discriminate.
    + exists [lit "Cash"]. reflexivity.
    + now apply node_data_at.
    + vm_compute in E0. inversion E0; subst. cbn in X. contradiction.
    + discriminate.
Qed.

(** What is shown: the accounts on whose path, themselves included, no account
    has a zero balance (an account named _root_ is never taken away). *)
Theorem C27_shown_partial : forall ord a, some_order ord -> distinct a ->
  forall q d, node (removeEmptyChildren ord a) q d <->
    node a q d /\ forall p x, p <> [] -> prefix p q -> node a p x ->
                    am_quantity (a_amount x) <> 0 \/ last p [] = lit "_root_".
Proof. intros ord a O D q d. now apply remove_empty_spec. Qed.

(** Zero accounts are hidden. *)
Theorem C27_zero_accounts_partial : forall ord a q d, some_order ord -> distinct a -> q <> [] -> last q [] <> lit "_root_" ->
  node (removeEmptyChildren ord a) q d -> am_quantity (a_amount d) <> 0.
Proof.
  intros ord a q d O D N L H. apply (C27_shown_partial ord a O D) in H as [H F].
  destruct (F q d N) as [X|X]; [exists []; now rewrite app_nil_r|exact H|exact X|contradiction].
Qed.

Example C27_example : option_map a_path (data_at [lit "Expenses"; lit "Food"] (removeEmptyChildren (fun _ _ l => l) (tree_of (pst (lit "Expenses:Food:Veg") 0 :: month))))
   = Some (lit "Expenses:Food") /\
  data_at [lit "Expenses"; lit "Food"; lit "Veg"] (removeEmptyChildren (fun _ _ l => l) (tree_of (pst (lit "Expenses:Food:Veg") 0 :: month))) = None.
Proof. split; vm_compute; reflexivity. Qed.

(** ** C28 *)

Theorem C28_flat_partial : forall pre a, distinct a -> (forall d, pre d <> []) ->
  exists rows, in_order rows /\ (forall q d, In (q, d) rows <-> subtree a q (Acc d [])) /\
    FlattenedTree pre a = unlines (map (flat_line pre) rows).
Proof.
  intros pre a D N. exists (leaf_rows [] a). split; [now apply leaf_rows_order|]. split.
  - intros q d. rewrite leaf_rows_iff. split; [intros (r & -> & H); exact H|intro H; exists q; auto].
  - unfold FlattenedTree. rewrite (flat_rows pre a []). apply add_lines_nil. rewrite Forall_forall. intros l I.
    apply in_map_iff in I as (r & <- & _). unfold flat_line. specialize (N (snd r)). destruct (pre (snd r)); [contradiction|discriminate].
Qed.

(** The sum of the rows of a tree in which accounts with children have no
    postings of their own. *)
Definition adds_up (a : account) : Prop := forall q b, subtree a q b -> acc_children b <> [] ->
  zero64 (balance b - sumZ (map (fun kc => balance (snd kc)) (acc_children b))).
Definition row_sum (rs : list (list str * adata)) : Z := sumZ (map (fun r => am_quantity (a_amount (snd r))) rs).

Lemma zero64_sum : forall a b, zero64 a -> zero64 b -> zero64 (a + b).
Proof. unfold zero64. intros a b A B. rewrite Z.add_mod, A, B by discriminate. reflexivity. Qed.

Lemma row_sum_app : forall a b, row_sum (a ++ b) = row_sum a + row_sum b.
Proof. intros. unfold row_sum. now rewrite map_app, sumZ_app. Qed.

Lemma leaf_sum : forall a p, adds_up a -> zero64 (balance a - row_sum (leaf_rows p a)).
Proof.
  intro a. induction a as [d ch IH] using account_ind'. intros p A. rewrite Forall_forall in IH.
  destruct ch as [|x ch].
  { cbn. unfold row_sum, balance. cbn. rewrite Z.add_0_r, Z.sub_diag. reflexivity. }
  rewrite leaf_rows_unfold by discriminate.
  pose proof (A [] _ (SubHere _)) as A0. cbn [acc_children] in A0. specialize (A0 ltac:(discriminate)).
  assert (P : Permutation (sort_by_key (x :: ch)) (x :: ch)) by apply sort_key_perm.
  rewrite <- (sumZ_perm _ _ (Permutation_map (fun kc => balance (snd kc)) P)) in A0.
  assert (Q : forall kc, In kc (sort_by_key (x :: ch)) -> In kc (x :: ch)) by (intros; eapply Permutation_in; eauto).
  assert (S : zero64 (sumZ (map (fun kc => balance (snd kc)) (sort_by_key (x :: ch))) -
                      row_sum (flat_map (fun kc => leaf_rows (p ++ [fst kc]) (snd kc)) (sort_by_key (x :: ch))))).
  { revert Q. generalize (sort_by_key (x :: ch)). induction l as [|[k c] l IHl]; intro Q; [reflexivity|].
    cbn [map flat_map fst snd]. rewrite sumZ_cons, row_sum_app.
    replace (_ - _) with ((balance c - row_sum (leaf_rows (p ++ [k]) c)) +
       (sumZ (map (fun kc => balance (snd kc)) l) - row_sum (flat_map (fun kc => leaf_rows (p ++ [fst kc]) (snd kc)) l))) by lia.
    apply zero64_sum.
    - apply (IH (k, c)); [apply Q; left; reflexivity|]. intros q b Sb. apply (A (k :: q)). econstructor; [|exact Sb].
      apply Q. left. reflexivity.
    - apply IHl. intros. apply Q. now right. }
  pose proof (zero64_sum _ _ A0 S) as Z. match goal with |- zero64 ?g => match type of Z with zero64 ?z => replace g with z by lia end end.
  exact Z.
Qed.

(** Taking away the zero accounts keeps the sums. *)
Lemma removed_adds_up : forall ord a, some_order ord -> distinct a -> adds_up a ->
  (forall q d, node a q d -> last q [] <> lit "_root_") -> adds_up (removeEmptyChildren ord a).
Proof.
  intros ord a O D A R q b Sb Nb.
  destruct (remove_empty_spec ord a O D) as [D' H].
  assert (Nq : node a q (acc_data b)) by (apply H; now apply subtree_node).
  apply node_subtree in Nq as (b0 & Sb0 & E0).
  assert (C0 : acc_children b0 <> []).
  { destruct b as [db [|[k c] chb]]; [contradiction|]. destruct c as [dc cc].
    assert (X : node (removeEmptyChildren ord a) (q ++ [k]) dc).
    { apply node_data_at; auto. apply subtree_find in Sb; auto. rewrite data_at_app, Sb, data_at_cons.
      unfold get. cbn. now rewrite str_eqb_refl. }
    apply H in X as [X _]. apply node_data_at in X; auto. apply subtree_find in Sb0; auto. rewrite data_at_app, Sb0 in X.
    destruct b0 as [d0 [|? ?]]; [discriminate|]. cbn. discriminate. }
  specialize (A q b0 Sb0 C0). unfold balance in A at 1. rewrite E0 in A.
  (* the children kept are those that are not zero *)
  pose proof (subtree_distinct _ _ _ D Sb0) as Db0. pose proof (subtree_distinct _ _ _ D' Sb) as Db.
  destruct b0 as [d0 ch0], b as [d1 ch1]. cbn [acc_children acc_data] in *. subst d0.
  inversion Db0 as [? ? N0 Dc0]; subst. inversion Db as [? ? N1 Dc1]; subst.
  assert (K : forall k x, (exists c, In (k, c) ch1 /\ acc_data c = x) <->
                          (exists c, In (k, c) ch0 /\ acc_data c = x) /\ am_quantity (a_amount x) <> 0).
  { intros k x.
    assert (Y1 : node (removeEmptyChildren ord a) (q ++ [k]) x <-> exists c, In (k, c) ch1 /\ acc_data c = x).
    { rewrite node_data_at by exact D'. apply subtree_find in Sb; auto. rewrite data_at_app, Sb, data_at_cons. split.
      - destruct (get k ch1) as [c|] eqn:G; [|discriminate]. intro E. apply get_in in G. exists c. split; [exact G|].
        destruct c. inversion E. reflexivity.
      - intros (c & I & <-). rewrite (in_get _ _ _ _ N1 I). destruct c. reflexivity. }
    assert (Y0 : node a (q ++ [k]) x <-> exists c, In (k, c) ch0 /\ acc_data c = x).
    { rewrite node_data_at by exact D. apply subtree_find in Sb0; auto. rewrite data_at_app, Sb0, data_at_cons. split.
      - destruct (get k ch0) as [c|] eqn:G; [|discriminate]. intro E. apply get_in in G. exists c. split; [exact G|].
        destruct c. inversion E. reflexivity.
      - intros (c & I & <-). rewrite (in_get _ _ _ _ N0 I). destruct c. reflexivity. }
    rewrite <- Y1, <- Y0, H. split.
    - intros [Hn F]. split; [exact Hn|]. destruct (F (q ++ [k]) x) as [X|X]; auto.
      + destruct q; discriminate.
      + exists []. now rewrite app_nil_r.
      + exfalso. apply (R _ _ Hn). exact X.
    - intros [Hn Nz]. split; [exact Hn|]. intros p y Np [r Pr] Hy.
      destruct r as [|r0 r'] using rev_ind.
      + rewrite app_nil_r in Pr. subst p. rewrite (node_fun _ _ _ _ D Hy Hn). auto.
      + clear IHr'. rewrite app_assoc in Pr. apply app_inj_tail in Pr as [Pr _].
        pose proof (subtree_node _ _ _ Sb) as Hq. apply H in Hq as [_ F]. apply (F p y Np); [exists r'; exact Pr|exact Hy]. }
  replace (balance (Acc d1 ch1)) with (am_quantity (a_amount d1)) by reflexivity.
  match goal with |- zero64 (_ - ?s) => match type of A with zero64 (_ - ?s0) => replace s with s0; [exact A|] end end.
  (* equal sums *)
  set (nz := filter (fun kc : str * account => negb (balance (snd kc) =? 0)) ch0).
  assert (S0 : sumZ (map (fun kc => balance (snd kc)) ch0) = sumZ (map (fun kc => balance (snd kc)) nz)).
  { subst nz. clear. induction ch0 as [|[k c] ch0 IH]; [reflexivity|]. cbn [map filter snd]. rewrite sumZ_cons, IH.
    destruct (Z.eqb_spec (balance c) 0) as [E|E]; cbn [negb]; [lia|]. cbn [map]. rewrite sumZ_cons. reflexivity. }
  rewrite S0.
  assert (P : Permutation (map (fun kc => (fst kc, balance (snd kc))) nz) (map (fun kc => (fst kc, balance (snd kc))) ch1)).
  { assert (Fst : forall l : list (str * account), map fst (map (fun kc => (fst kc, balance (snd kc))) l) = map fst l).
    { intro l. now rewrite map_map. }
    apply NoDup_Permutation.
    - apply (NoDup_map_inv fst). rewrite Fst. subst nz. clear - N0. induction ch0 as [|[k c] ch0 IH]; [constructor|].
      cbn. inversion N0; subst. destruct (negb (balance c =? 0)); [|auto]. cbn. constructor; [|auto].
      intro I. apply H1. apply in_map_iff in I as (z & E & I). apply filter_In in I as [I _]. apply in_map_iff. eauto.
    - apply (NoDup_map_inv fst). now rewrite Fst.
    - intros [k v]. rewrite !in_map_iff. split.
      + intros ([k' c] & E & I). cbn in E. inversion E; subst. unfold nz in I. apply filter_In in I as [I B]. cbn in B.
        apply negb_true_iff, Z.eqb_neq in B. destruct (proj2 (K k (acc_data c))) as (c' & I' & E').
        { split; [eauto|exact B]. }
        exists (k, c'). split; [|exact I']. cbn. unfold balance. now rewrite E'.
      + intros ([k' c] & E & I). cbn in E. inversion E; subst.
        destruct (proj1 (K k (acc_data c))) as [(c' & I' & E') Nz]; [eauto|].
        exists (k, c'). split; [cbn; unfold balance; now rewrite E'|]. apply filter_In. split; [exact I'|]. cbn.
        apply negb_true_iff, Z.eqb_neq. unfold balance. now rewrite E'. }
  apply (Permutation_map snd) in P. rewrite !map_map in P. cbn in P. now apply sumZ_perm.
Qed.

Definition own_and_below : list posting :=
  [pst (lit "Assets") 500; pst (lit "Assets:Cash") 300; pst (lit "Income") (-800)].

(** Money posted to an account that has children is in the total only. *)
Theorem C28_adds_up_refuted : exists ps j out, j_addPostings newJournal ps = (j, out, SOk) /\
  balance (j_root j) = 0 /\
  forall rows, (forall q d, In (q, d) rows <-> subtree (j_root j) q (Acc d [])) -> NoDup (map fst rows) ->
    wrap64 (row_sum rows) <> balance (j_root j).
Proof.
  assert (A : Forall (fun p => po_amount p <> None) own_and_below) by (repeat constructor; discriminate).
  destruct (C23_added _ A) as (j & out & H). exists own_and_below, j, out. split; [exact H|].
  pose proof (built_postings own_and_below [] newJournal _ _ built_new H) as B. cbn [app] in B.
  assert (T : tree_of own_and_below = j_root j) by (unfold tree_of; now rewrite H). rewrite <- T in *.
  assert (Z : balance (tree_of own_and_below) = 0) by (vm_compute; reflexivity). split; [exact Z|].
  intros rows R N. rewrite Z.
  assert (P : Permutation rows (leaf_rows [] (tree_of own_and_below))).
  { apply NoDup_Permutation.
    - now apply (NoDup_map_inv fst).
    - apply (NoDup_map_inv fst). vm_compute. repeat constructor; cbn; intuition discriminate.
    - intros [q d]. rewrite R, leaf_rows_iff. split; [intro X; exists q; auto|intros (r & -> & X); exact X]. }
  unfold row_sum. rewrite (sumZ_perm _ _ (Permutation_map _ P)). vm_compute. discriminate.
Qed.

(** If nothing was posted to accounts with children, the rows add up to the
    printed total, with and without the zero accounts. *)
Theorem C28_adds_up_partial : forall ps j out ord pre t, j_addPostings newJournal ps = (j, out, SOk) ->
  some_order ord -> (forall d, pre d <> []) ->
  (forall p b, In p ps -> subtree (j_root j) (components p) b -> acc_children b = []) ->
  Forall (fun p => Forall unreserved (components p)) ps ->
  t = j_root j \/ t = removeEmptyChildren ord (j_root j) ->
  exists rows, in_order rows /\ (forall q d, In (q, d) rows <-> subtree t q (Acc d [])) /\
    FlattenedTree pre t = unlines (map (flat_line pre) rows) /\
    wrap64 (row_sum rows) = balance t /\ acc_data t = acc_data (j_root j).
Proof.
  intros ps j out ord pre t H O Np L U T.
  pose proof (built_postings ps [] newJournal _ _ built_new H) as B. cbn [app] in B. pose proof (b_distinct _ _ B) as D.
  assert (A : adds_up (j_root j)).
  { intros q b Sb Nb. destruct (C23_parent _ _ _ H _ _ Sb) as [P Q].
    assert (X : a_postings (acc_data b) = []).
    { rewrite P. destruct (filter (here q) ps) as [|p l] eqn:F; [reflexivity|]. exfalso.
      assert (I : In p (filter (here q) ps)) by (rewrite F; left; reflexivity). apply filter_In in I as [I E].
      unfold here in E. destruct (list_str_dec q (components p)) as [->|]; [|discriminate]. apply Nb. eapply L; eauto. }
    rewrite X in Q. cbn in Q. rewrite Q. unfold zero64. rewrite Zminus_mod, wrap64_mod, Z.sub_diag. reflexivity. }
  assert (Rt : forall q d, node (j_root j) q d -> last q [] <> lit "_root_").
  { intros q d X E. destruct q as [|k q]; [discriminate|].
    assert (Ex : exists d, node (j_root j) (k :: q) d) by eauto.
    apply (C23_accounts _ _ _ H) in Ex as [Ex|(p & I & [r Er])]; [discriminate|]. rewrite Forall_forall in U. specialize (U _ I).
    rewrite Er in U. apply Forall_app in U as [U _].
    assert (In (last (k :: q) []) (k :: q)) as Il.
    { rewrite (app_removelast_last [] (l := k :: q)) at 2 by discriminate. apply in_or_app. right. left. reflexivity. }
    rewrite Forall_forall in U. destruct (U _ Il) as [U1 _]. contradiction. }
  assert (Dt : distinct t /\ adds_up t /\ acc_data t = acc_data (j_root j)).
  { destruct T as [->| ->]; [auto|]. destruct (remove_empty_spec ord (j_root j) O D) as [D' Hn].
    split; [exact D'|]. split; [now apply removed_adds_up|].
    assert (X : node (removeEmptyChildren ord (j_root j)) [] (acc_data (j_root j))).
    { apply Hn. split; [now apply node_nil|]. intros p x Nn [r E] _. destruct p; [contradiction|discriminate]. }
    apply node_nil in X. congruence. }
  destruct Dt as (Dt & At & Et). exists (leaf_rows [] t). split; [now apply leaf_rows_order|]. split.
  { intros q d. rewrite leaf_rows_iff. split; [intros (r & -> & X); exact X|intro X; exists q; auto]. }
  split; [|split; [|exact Et]].
  - unfold FlattenedTree. rewrite (flat_rows pre t []). apply add_lines_nil. rewrite Forall_forall. intros l I.
    apply in_map_iff in I as (r & <- & _). unfold flat_line. specialize (Np (snd r)). destruct (pre (snd r)); [contradiction|discriminate].
  - pose proof (leaf_sum t [] At) as Z. unfold zero64 in Z.
    assert (R : in_int64 (balance t)).
    { unfold balance. rewrite Et. fold (balance (j_root j)).
      rewrite (proj2 (C23_parent _ _ _ H [] _ (SubHere _))). apply wrap64_range. }
    rewrite <- (wrap64_id (balance t) R). apply wrap64_eq_iff. symmetry.
    rewrite <- (Z.sub_add (row_sum (leaf_rows [] t)) (balance t)) at 1. rewrite Z.add_mod, Z by discriminate.
    rewrite Z.add_0_l, Z.mod_mod by discriminate. reflexivity.
Qed.

Definition leaf_month : list posting :=
  [pst (lit "Assets:Bank") (-150); pst (lit "Expenses:Food:Fruit") 100; pst (lit "Expenses:Food:Veg") 50;
   pst (lit "Assets:Cash") 0].
Example C28_example :
  Forall (fun p => po_amount p <> None) leaf_month /\
  Forall (fun p => Forall unreserved (components p)) leaf_month /\
  forallb (fun p => match find_at (components p) (tree_of leaf_month) with
                    | Some (Acc _ []) => true | _ => false end) leaf_month = true /\
  FlattenedTree prepender (removeEmptyChildren (fun _ _ l => l) (tree_of leaf_month)) = unlines
    [lit "              £-1.50  Assets:Bank"; lit "               £1.00  Expenses:Food:Fruit";
     lit "               £0.50  Expenses:Food:Veg"].
Proof.
  split; [repeat constructor; discriminate|]. split; [|split; vm_compute; reflexivity].
  repeat (constructor; [vm_compute; repeat constructor; discriminate|]). constructor.
Qed.
