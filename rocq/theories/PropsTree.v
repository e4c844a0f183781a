(** * Properties of the account tree: C23, C25, C31, C32, C34, C35, C36 *)
From Verif Require Import Base BaseFacts GoTime Strconv Journal Account Spec JournalFacts
  TreeSpec TreeFacts PruneFacts.

(** Postings for the examples. *)
Definition pst (acc : str) (q : Z) : posting := Posting [] acc (Some (Amount (lit "£") q)).
Definition month : list posting :=
  [pst (lit "Assets:Bank") (-150); pst (lit "Expenses:Food:Fruit") 100; pst (lit "Expenses:Food") 50;
   pst (lit "Assets:Cash") (-30); pst (lit "Expenses:Rent") 30].
Definition tree_of (ps : list posting) : account := j_root (fst (fst (j_addPostings newJournal ps))).

Lemma month_amounts : Forall (fun p => po_amount p <> None) month.
Proof. repeat constructor; discriminate. Qed.
Lemma tree_built : forall ps, Forall (fun p => po_amount p <> None) ps -> built ps (tree_of ps).
Proof.
  intros ps F. destruct (built_total ps [] newJournal built_new F) as (j & out & E). unfold tree_of. rewrite E.
  exact (built_postings ps [] newJournal j out built_new E).
Qed.

(** ** C31 *)

Theorem C31_find_or_create : forall a comps, distinct a -> named a -> comps <> [] ->
  exists a', findOrCreateAccount a comps = Some a' /\ distinct a' /\ named a' /\
    (forall q, prefix q comps -> exists d, node a' q d) /\
    (forall q d, node a q d -> node a' q d) /\
    (forall q d, node a' q d -> node a q d \/
       prefix q comps /\ q <> [] /\ (forall d', ~ node a q d') /\
       a_name d = last q [] /\ am_quantity (a_amount d) = 0 /\ am_commodity (a_amount d) = [] /\ a_postings d = []) /\
    findOrCreateAccount a' comps = Some a'.
Proof.
  intros a comps D N Nc. destruct (foc_total a comps Nc) as [a' E]. exists a'. split; [exact E|].
  destruct (foc_wf _ _ _ D N E) as (D' & N' & _). pose proof (foc_data _ _ _ D N E) as Q.
  split; [exact D'|]. split; [exact N'|]. split; [|split; [|split]].
  - intros q P. apply prefixb_iff in P. specialize (Q q). rewrite P in Q.
    destruct (data_at q a) eqn:Da; eexists; (apply node_data_at; [exact D'|exact Q]).
  - intros q d H. apply node_data_at in H; auto. apply node_data_at; auto. now rewrite Q, H.
  - intros q d H. apply node_data_at in H; auto. rewrite Q in H. destruct (data_at q a) eqn:Da.
    + left. apply node_data_at; auto. congruence.
    + right. destruct (prefixb q comps) eqn:P; [|discriminate]. apply prefixb_iff in P.
      inversion H; subst. repeat split; auto.
      * intros ->. destruct a. discriminate.
      * intros d' X. apply node_data_at in X; auto. congruence.
  - apply foc_again; [exact Nc|exact (foc_found _ _ _ D N E)].
Qed.

Example C31_example : distinct (tree_of month) /\ named (tree_of month) /\
  data_at [lit "Expenses"; lit "Food"] (tree_of month) <> None /\
  data_at [lit "Expenses"; lit "Food"; lit "Veg"] (tree_of month) = None.
Proof.
  pose proof (tree_built month month_amounts) as B. split; [apply (b_distinct _ _ B)|]. split; [apply (b_named _ _ B)|].
  split; vm_compute; [discriminate|reflexivity].
Qed.

(** ** C23 *)

Theorem C23_balance : forall ps j out, j_addPostings newJournal ps = (j, out, SOk) ->
  forall q d, node (j_root j) q d -> am_quantity (a_amount d) = wrap64 (total (filter (below q) ps)).
Proof.
  intros ps j out H q d X. pose proof (built_postings ps [] newJournal _ _ built_new H) as B. cbn [app] in B.
  apply node_data_at in X; [|apply (b_distinct _ _ B)]. apply (b_some _ _ B _ _ X).
Qed.

Theorem C23_accounts : forall ps j out, j_addPostings newJournal ps = (j, out, SOk) ->
  forall q, (exists d, node (j_root j) q d) <-> q = [] \/ exists p, In p ps /\ prefix q (components p).
Proof.
  intros ps j out H q. pose proof (built_postings ps [] newJournal _ _ built_new H) as B. cbn [app] in B.
  assert (S : forall p, prefix q (components p) <-> below q p = true) by (intro; symmetry; apply prefixb_iff).
  split.
  - intros [d X]. apply node_data_at in X; [|apply (b_distinct _ _ B)].
    destruct (b_some _ _ B _ _ X) as ([->|(p & I & Bp)] & _); [auto|]. right. exists p. split; auto. now apply S.
  - intro C. destruct (data_at q (j_root j)) as [d|] eqn:E.
    + exists d. apply node_data_at; auto. apply (b_distinct _ _ B).
    + destruct (b_none _ _ B _ E) as [Nq F]. destruct C as [->|(p & I & P)]; [contradiction|].
      exfalso. apply S in P. assert (X : In p (filter (below q) ps)) by (apply filter_In; auto). rewrite F in X. contradiction.
Qed.

(** A parent's balance is its own postings plus the balances of its children. *)
Theorem C23_parent : forall ps j out, j_addPostings newJournal ps = (j, out, SOk) ->
  forall q b, subtree (j_root j) q b ->
    a_postings (acc_data b) = filter (here q) ps /\
    balance b = wrap64 (total (a_postings (acc_data b)) + sumZ (map (fun kc => balance (snd kc)) (acc_children b))).
Proof.
  intros ps j out H q b X. pose proof (built_postings ps [] newJournal _ _ built_new H) as B. cbn [app] in B.
  pose proof (b_distinct _ _ B) as D.
  assert (Db : data_at q (j_root j) = Some (acc_data b)).
  { apply node_data_at; auto. now apply subtree_node. }
  destruct (b_some _ _ B _ _ Db) as (_ & Q & _ & P & _). split; [exact P|]. rewrite P. unfold balance at 1. rewrite Q.
  pose proof (subtree_distinct _ _ _ D X) as Ds. apply subtree_find in X; auto. destruct b as [d ch].
  inversion Ds as [? ? N Dc]; subst. cbn [acc_children].
  rewrite (split_below q (map fst ch)); auto.
  - rewrite <- wrap64_add_r, <- wrap64_sum, wrap64_add_r. do 3 f_equal. rewrite map_map. apply map_ext_in.
    intros [k c] I. cbn [fst snd]. symmetry. unfold balance.
    assert (E : data_at (q ++ [k]) (j_root j) = Some (acc_data c)).
    { rewrite data_at_app, X, data_at_cons, (in_get _ _ _ _ N I). reflexivity. }
    apply (b_some _ _ B _ _ E).
  - intros k p I Bk. destruct (in_dec str_eq_dec k (map fst ch)) as [|Nk]; [auto|]. exfalso.
    assert (E : data_at (q ++ [k]) (j_root j) = None).
    { rewrite data_at_app, X, data_at_cons. apply get_none in Nk. now rewrite Nk. }
    apply (b_none _ _ B) in E as [_ E]. assert (Y : In p (filter (below (q ++ [k])) ps)) by (apply filter_In; auto).
    rewrite E in Y. contradiction.
Qed.

(** Postings with amounts are always added. *)
Theorem C23_added : forall ps, Forall (fun p => po_amount p <> None) ps ->
  exists j out, j_addPostings newJournal ps = (j, out, SOk).
Proof. intros ps F. eapply built_total; [apply built_new|exact F]. Qed.

Example C23_example : Forall (fun p => po_amount p <> None) month /\
  total (filter (below [lit "Expenses"]) month) = 180 /\
  option_map (fun d => am_quantity (a_amount d)) (data_at [lit "Expenses"] (tree_of month)) = Some 180.
Proof. split; [exact month_amounts|]. split; vm_compute; reflexivity. Qed.

(** ** C25 *)

Theorem C25_order : forall ps ps' j out, Permutation ps ps' -> j_addPostings newJournal ps = (j, out, SOk) ->
  exists j' out', j_addPostings newJournal ps' = (j', out', SOk) /\
    (forall q, (exists d, node (j_root j) q d) <-> (exists d, node (j_root j') q d)) /\
    (forall q d d', node (j_root j) q d -> node (j_root j') q d' ->
       am_quantity (a_amount d) = am_quantity (a_amount d') /\ Permutation (a_postings d) (a_postings d')).
Proof.
  intros ps ps' j out P H.
  assert (F : Forall (fun p => po_amount p <> None) ps).
  { clear P. revert H. generalize newJournal. revert j out. induction ps as [|p ps IH]; intros j out j0 H; [constructor|].
    cbn in H. unfold j_addPosting, wireUpPosting in H. destruct (po_amount p) as [am|] eqn:A.
    - destruct (findOrCreateAccount _ _); [|discriminate]. destruct (walkAncestors _ _ _) as [[r o]|]; [|discriminate].
      match type of H with context [j_addPostings ?x ps] => destruct (j_addPostings x ps) as [[j2 o2] st] eqn:E end.
      inversion H; subst. constructor; [congruence|]. eapply IH; eauto.
    - destruct (findOrCreateAccount _ _); discriminate. }
  assert (F' : Forall (fun p => po_amount p <> None) ps') by (eapply Permutation_Forall; eauto).
  destruct (C23_added ps' F') as (j' & out' & H'). exists j', out'. split; [exact H'|]. split.
  - intro q. rewrite (C23_accounts _ _ _ H), (C23_accounts _ _ _ H').
    split; (intros [->|(p & I & Q)]; [auto|]; right; exists p; split; auto).
    + eapply Permutation_in; eauto.
    + eapply Permutation_in; [symmetry|]; eauto.
  - intros q d d' X X'. split.
    + rewrite (C23_balance _ _ _ H _ _ X), (C23_balance _ _ _ H' _ _ X'). f_equal. apply total_perm. now apply filter_perm.
    + apply node_subtree in X as (b & Sb & <-). apply node_subtree in X' as (b' & Sb' & <-).
      destruct (C23_parent _ _ _ H _ _ Sb) as [-> _]. destruct (C23_parent _ _ _ H' _ _ Sb') as [-> _]. now apply filter_perm.
Qed.

Example C25_example : Permutation month (rev month) /\ map po_account month <> map po_account (rev month) /\
  snd (j_addPostings newJournal month) = SOk.
Proof. split; [apply Permutation_rev|]. split; vm_compute; [discriminate|reflexivity]. Qed.

(** ** C32 *)

Theorem C32_path : forall ps j out, j_addPostings newJournal ps = (j, out, SOk) ->
  Forall (fun p => Forall unreserved (components p)) ps ->
  forall q d, node (j_root j) q d -> q <> [] ->
    a_path d = join [58] q /\ split 58 (a_path d) = q /\ a_name d = last q [].
Proof.
  intros ps j out H U q d X N. pose proof (built_postings ps [] newJournal _ _ built_new H) as B. cbn [app] in B.
  apply node_data_at in X; [|apply (b_distinct _ _ B)].
  destruct (b_some _ _ B _ _ X) as (E & _ & _ & _ & Nm & P).
  destruct E as [->|(p & I & Bp)]; [contradiction|]. unfold below in Bp. apply prefixb_iff in Bp as [r Er].
  rewrite Forall_forall in U. specialize (U _ I). rewrite Er in U. apply Forall_app in U as [U _].
  assert (J : a_path d = join [58] q).
  { rewrite P. destruct q as [|k q']; [contradiction|]. apply createPath_components; auto.
    rewrite (app_removelast_last [] N) in U. apply Forall_app in U. tauto. }
  repeat split; auto.
  - rewrite J. apply split_join; auto. pose proof (split_no_sep 58 (po_account p)) as S.
    change (split 58 (po_account p)) with (components p) in S. rewrite Er in S. apply Forall_app in S. tauto.
  - rewrite Nm. now apply last_any.
Qed.

Example C32_example : Forall (fun p => Forall unreserved (components p)) month /\
  snd (j_addPostings newJournal month) = SOk /\
  option_map a_path (data_at [lit "Expenses"; lit "Food"] (tree_of month)) = Some (lit "Expenses:Food").
Proof.
  split; [|split; vm_compute; reflexivity].
  repeat (constructor; [vm_compute; repeat constructor; discriminate|]). constructor.
Qed.

(** ** C34 *)

Theorem C34_prune : forall a depth q d, 0 <= depth ->
  (node (pruneChildren depth 0 a) q d <-> node a q d /\ Z.of_nat (length q) <= depth).
Proof. intros a depth q d H. rewrite prune_node by exact H. now rewrite Z.add_0_l. Qed.

(** A negative depth leaves the tree as it is. *)
Theorem C34_negative : forall a depth, depth < 0 -> pruneChildren depth 0 a = a.
Proof. intros. now apply prune_deep. Qed.

Example C34_example : data_at [lit "Expenses"; lit "Food"] (pruneChildren 1 0 (tree_of month)) = None /\
  option_map a_path (data_at [lit "Expenses"] (pruneChildren 1 0 (tree_of month))) = Some (lit "Expenses").
Proof. split; vm_compute; reflexivity. Qed.

(** ** C35 *)

Theorem C35_remove : forall matcher a, distinct a ->
  (forall q d, node (fst (removeChildren matcher a)) q d <->
     node a q d /\ (q = [] \/ exists r b, subtree a (q ++ r) b /\ matcher b = true)) /\
  (snd (removeChildren matcher a) = true <-> exists q b, subtree a q b /\ matcher b = true).
Proof. intros m a D. split; [intros; now apply remove_node|apply remove_found]. Qed.

Example C35_example :
  let m := fun b => str_eqb (acc_name b) (lit "Food") in
  option_map a_path (data_at [lit "Expenses"] (fst (removeChildren m (tree_of month)))) = Some (lit "Expenses") /\
  data_at [lit "Assets"] (fst (removeChildren m (tree_of month))) = None /\
  data_at [lit "Expenses"; lit "Food"; lit "Fruit"] (fst (removeChildren m (tree_of month))) = None /\
  snd (removeChildren m (tree_of month)) = true.
Proof. repeat split; vm_compute; reflexivity. Qed.

(** ** C36 *)

Theorem C36_find : forall ord matcher a, some_order ord -> distinct a ->
  NoDup (findAccounts ord matcher [] a) /\
  forall q, In q (findAccounts ord matcher [] a) <-> exists b, subtree a q b /\ matcher b = true.
Proof.
  intros ord m a O D. split; [now apply find_nodup|]. intro q. rewrite find_iff by exact O. split.
  - intros (r & b & -> & S & M). eauto.
  - intros (b & S & M). exists q, b. auto.
Qed.

Theorem C36_leaves : forall ord a, some_order ord -> distinct a ->
  NoDup (leaves ord a) /\ forall q, In q (leaves ord a) <-> exists b, subtree a q b /\ acc_children b = [].
Proof.
  intros ord a O D. unfold leaves. destruct (C36_find ord (fun x => match acc_children x with [] => true | _ => false end) a O D) as [N H].
  split; [exact N|]. intro q. rewrite H. split; intros (b & S & M); exists b; (split; [exact S|]).
  - destruct (acc_children b); [reflexivity|discriminate].
  - now rewrite M.
Qed.

Example C36_example : some_order (fun _ _ l => rev l) /\
  leaves (fun _ _ l => rev l) (tree_of month) =
    [[lit "Expenses"; lit "Rent"]; [lit "Expenses"; lit "Food"; lit "Fruit"];
     [lit "Assets"; lit "Cash"]; [lit "Assets"; lit "Bank"]].
Proof. split; [intros p A l; symmetry; apply Permutation_rev|vm_compute; reflexivity]. Qed.
