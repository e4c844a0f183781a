(** * Facts about the account reports *)
From Verif Require Import Base Utf8 BaseFacts GoTime Strconv Journal Account Reporting Spec JournalFacts
  TreeSpec TreeFacts ReportSpec.

Lemma pad_left_flush : forall n s, pad_left n s = flush_right n s.
Proof. intros. unfold pad_left, flush_right, rune_count, decode. now rewrite map_length. Qed.
Lemma pad_right_flush : forall n s, pad_right n s = flush_left n s.
Proof. intros. unfold pad_right, flush_left, rune_count, decode. now rewrite map_length. Qed.

(** ** Sorting by key *)
Definition key_lt {V} (x y : str * V) : Prop := str_ltb (fst x) (fst y) = true.

Lemma key_le_trans : forall V (a b c : str * V), le key_ltb a b -> le key_ltb b c -> le key_ltb a c.
Proof. intros V a b c. unfold le, key_ltb. apply str_le_trans. Qed.

Lemma sort_key_perm : forall V (l : list (str * V)), Permutation (sort_by_key l) l.
Proof. intros. apply isort_perm. Qed.

Lemma sort_key_sorted : forall V (l : list (str * V)), StronglySorted (le key_ltb) (sort_by_key l).
Proof.
  intros. apply isort_sorted.
  - intro. apply str_ltb_irrefl.
  - intros a b c. apply str_ltb_trans.
  - apply key_le_trans.
Qed.

Lemma sort_key_strict : forall V (l : list (str * V)), NoDup (map fst l) -> StronglySorted key_lt (sort_by_key l).
Proof.
  intros V l N. pose proof (sort_key_sorted V l) as S.
  assert (N' : NoDup (map fst (sort_by_key l))).
  { eapply Permutation_NoDup; [|exact N]. apply Permutation_map. symmetry. apply sort_key_perm. }
  revert S N'. generalize (sort_by_key l). clear. induction l as [|x l IH]; intros S N; [constructor|].
  inversion S; subst. inversion N; subst. constructor; [auto|]. rewrite Forall_forall in *. intros y I.
  specialize (H2 _ I). unfold le, key_ltb in H2. unfold key_lt.
  destruct (str_ltb (fst x) (fst y)) eqn:E; [reflexivity|]. exfalso. apply H3.
  rewrite (str_ltb_total _ _ E H2). now apply in_map.
Qed.

Lemma sort_key_map : forall V W (f : str * V -> W) l,
  sort_by_key (map (fun kc => (fst kc, f kc)) l) = map (fun kc => (fst kc, f kc)) (sort_by_key l).
Proof.
  intros V W f l. unfold sort_by_key. induction l as [|x l IH]; [reflexivity|]. cbn [map isort]. rewrite IH.
  generalize (isort key_ltb l). clear. induction l as [|y l IH]; [reflexivity|]. cbn [map insert].
  unfold key_ltb at 1 3. cbn [fst]. destruct (str_ltb (fst y) (fst x)); [|reflexivity]. cbn [map]. now rewrite IH.
Qed.

Lemma sort_key_id : forall V (l : list (str * V)), StronglySorted (le key_ltb) l -> sort_by_key l = l.
Proof.
  intros V l S. unfold sort_by_key. induction S as [|x l S IH F]; [reflexivity|]. cbn. rewrite IH.
  destruct l as [|y l]; [reflexivity|]. cbn. inversion F; subst. unfold le in H1. now rewrite H1.
Qed.

Lemma sort_key_idem : forall V (l : list (str * V)), sort_by_key (sort_by_key l) = sort_by_key l.
Proof. intros. apply sort_key_id. apply sort_key_sorted. Qed.

Lemma sort_key_unique : forall V (l l' : list (str * V)), NoDup (map fst l) -> Permutation l l' ->
  sort_by_key l = sort_by_key l'.
Proof.
  intros V l l' N P. apply sorted_perm_unique with (R := key_lt).
  - intros a b _ _ H1 H2. unfold key_lt in *. pose proof (str_ltb_trans _ _ _ H1 H2) as X.
    rewrite str_ltb_irrefl in X. discriminate.
  - now apply sort_key_strict.
  - apply sort_key_strict. eapply Permutation_NoDup; [|exact N]. now apply Permutation_map.
  - rewrite !sort_key_perm. exact P.
Qed.

(** ** The tree with its children in order *)
Fixpoint canon (a : account) : account :=
  let 'Acc d ch := a in Acc d (sort_by_key (map (fun kc => (fst kc, canon (snd kc))) ch)).

Lemma canon_same : forall a b, distinct a -> distinct b ->
  (forall q x, node a q x <-> node b q x) -> canon a = canon b.
Proof.
  intro a. induction a as [d ch IH] using account_ind'. intros [d' ch'] D D' H. rewrite Forall_forall in IH.
  inversion D as [? ? N Dc]; subst. inversion D' as [? ? N' Dc']; subst.
  cbn [canon]. f_equal.
  - specialize (H [] d). rewrite !node_nil in H. cbn in H. tauto.
  - assert (S : forall k c c', In (k, c) ch -> In (k, c') ch' -> canon c = canon c').
    { intros k c c' I I'. apply (IH _ I); eauto. intros q x. specialize (H (k :: q) x). rewrite !node_cons in H. cbn [snd]. split; intro X.
      - destruct H as [H _]. destruct H as (c2 & I2 & X2); [eauto|].
        replace c' with c2; [exact X2|]. apply (in_get _ _ _ _ N') in I', I2. congruence.
      - destruct H as [_ H]. destruct H as (c2 & I2 & X2); [eauto|].
        replace c with c2; [exact X2|]. apply (in_get _ _ _ _ N) in I, I2. congruence. }
    assert (K : forall k, (exists c, In (k, c) ch) <-> (exists c, In (k, c) ch')).
    { intro k. split; intros [[dc cc] I].
      - assert (X : node (Acc d ch) [k] dc) by (apply node_cons; exists (Acc dc cc); split; [exact I|now apply node_nil]).
        apply H, node_cons in X as (c & X & _). eauto.
      - assert (X : node (Acc d' ch') [k] dc) by (apply node_cons; exists (Acc dc cc); split; [exact I|now apply node_nil]).
        apply H, node_cons in X as (c & X & _). eauto. }
    assert (M : forall l : list (str * account), map fst (map (fun kc => (fst kc, canon (snd kc))) l) = map fst l).
    { intro l. rewrite map_map. reflexivity. }
    apply sort_key_unique; [now rewrite M|]. apply NoDup_Permutation.
    + apply (NoDup_map_inv fst). now rewrite M.
    + apply (NoDup_map_inv fst). now rewrite M.
    + intros [k c]. rewrite !in_map_iff. split; intros ([k' x] & E & I); cbn in E; inversion E; subst.
      * destruct (proj1 (K k)) as [c' I']; [eauto|]. exists (k, c'). split; [|exact I']. cbn. f_equal. symmetry. eapply S; eauto.
      * destruct (proj2 (K k)) as [c' I']; [eauto|]. exists (k, c'). split; [|exact I']. cbn. f_equal. eapply S; eauto.
Qed.

Lemma one_length : forall A (l : list A), (match l with [_] => true | _ => false end) = Nat.eqb (length l) 1.
Proof. intros A [|x [|y l]]; reflexivity. Qed.

Lemma sort_length : forall V (l : list (str * V)), length (sort_by_key l) = length l.
Proof. intros. apply Permutation_length. apply sort_key_perm. Qed.

Lemma fold_ext_in : forall A B (f g : A -> B -> A) l, (forall a b, In b l -> f a b = g a b) ->
  forall a, fold_left f l a = fold_left g l a.
Proof.
  induction l as [|x l IH]; intros H a; [reflexivity|]. cbn. rewrite H by (left; reflexivity).
  apply IH. intros. apply H. now right.
Qed.

Lemma fold_map : forall A B C (f : A -> C -> A) (g : B -> C) l a,
  fold_left f (map g l) a = fold_left (fun a b => f a (g b)) l a.
Proof. induction l; intro; cbn; auto. Qed.

(** The fold over the sorted children, without the map. *)
Lemma fold_children : forall V C (t : V -> C -> C) ch c,
  fold_left (fun c (kf : str * (C -> C)) => snd kf c) (sort_by_key (map (fun kc => (fst kc, t (snd kc))) ch)) c =
  fold_left (fun c kc => t (snd kc) c) (sort_by_key ch) c.
Proof. intros. rewrite (sort_key_map _ _ (fun kc => t (snd kc))). rewrite fold_map. reflexivity. Qed.

Section Reports.
Variable pre : adata -> str.

Lemma tree_canon : forall col a c, tree pre col a c = tree pre col (canon a) c.
Proof.
  intros col a. induction a as [d ch IH] using account_ind'. intro c. rewrite Forall_forall in IH.
  cbn [canon tree]. rewrite !one_length, sort_length, map_length.
  assert (F : forall c, fold_left (fun c (kf : str * (treeContext -> treeContext)) => snd kf c)
                 (sort_by_key (map (fun kc => (fst kc, tree pre col (snd kc))) ch)) c =
              fold_left (fun c (kf : str * (treeContext -> treeContext)) => snd kf c)
                 (sort_by_key (map (fun kc => (fst kc, tree pre col (snd kc)))
                    (sort_by_key (map (fun kc => (fst kc, canon (snd kc))) ch)))) c).
  { intro c0. rewrite !fold_children, sort_key_idem, (sort_key_map _ _ (fun kc => canon (snd kc))), fold_map. cbn [snd].
    apply fold_ext_in. intros a b I. apply IH. eapply Permutation_in; [apply sort_key_perm|exact I]. }
  destruct (c_isOnlyChild c && col); rewrite F; reflexivity.
Qed.

Lemma Tree_canon : forall col a, Tree pre col a = Tree pre col (canon a).
Proof.
  intros col [d ch]. unfold Tree. cbn [canon acc_children].
  rewrite !fold_children, sort_key_idem, (sort_key_map _ _ (fun kc => canon (snd kc))), fold_map. cbn [snd].
  f_equal. apply fold_ext_in. intros. apply tree_canon.
Qed.

Lemma flat_canon : forall a s, flattenedTree pre a s = flattenedTree pre (canon a) s.
Proof.
  intro a. induction a as [d ch IH] using account_ind'. intro s. rewrite Forall_forall in IH. cbn [canon flattenedTree].
  pose proof (sort_length _ (map (fun kc => (fst kc, canon (snd kc))) ch)) as L. rewrite map_length in L.
  destruct ch as [|x ch]; [reflexivity|].
  destruct (sort_by_key (map (fun kc => (fst kc, canon (snd kc))) (x :: ch))) as [|y l] eqn:E; [discriminate|]. rewrite <- E.
  rewrite !fold_children, sort_key_idem, (sort_key_map _ _ (fun kc => canon (snd kc))), fold_map. cbn [snd].
  apply fold_ext_in. intros a b I. apply IH. eapply Permutation_in; [apply sort_key_perm|exact I].
Qed.

Lemma reports_same : forall a b, distinct a -> distinct b -> (forall q x, node a q x <-> node b q x) ->
  (forall col, Tree pre col a = Tree pre col b) /\ FlattenedTree pre a = FlattenedTree pre b.
Proof.
  intros a b Da Db H. pose proof (canon_same a b Da Db H) as E. split.
  - intro col. rewrite Tree_canon, E, <- Tree_canon. reflexivity.
  - unfold FlattenedTree. rewrite flat_canon, E, <- flat_canon. reflexivity.
Qed.

(** ** Rows *)
Fixpoint rows (p : list str) (a : account) : list (list str * adata) :=
  concat (map snd (sort_by_key
    (map (fun kc => (fst kc, (p ++ [fst kc], acc_data (snd kc)) :: rows (p ++ [fst kc]) (snd kc))) (acc_children a)))).

Lemma rows_unfold : forall p d ch, rows p (Acc d ch) =
  flat_map (fun kc => (p ++ [fst kc], acc_data (snd kc)) :: rows (p ++ [fst kc]) (snd kc)) (sort_by_key ch).
Proof.
  intros. cbn [rows acc_children].
  rewrite (sort_key_map _ _ (fun kc => (p ++ [fst kc], acc_data (snd kc)) :: rows (p ++ [fst kc]) (snd kc))).
  rewrite map_map, flat_map_concat_map. reflexivity.
Qed.

Lemma rows_iff : forall a p q d, In (q, d) (rows p a) <-> exists k r, q = p ++ k :: r /\ node a (k :: r) d.
Proof.
  intro a. induction a as [d0 ch IH] using account_ind'. intros p q d. rewrite Forall_forall in IH.
  rewrite rows_unfold, in_flat_map. split.
  - intros ([k c] & I & H). apply (Permutation_in _ (sort_key_perm _ _)) in I. cbn [fst snd] in H. destruct H as [E|H].
    + inversion E; subst. exists k, []. split; [reflexivity|]. apply node_cons. exists c. split; [exact I|now apply node_nil].
    + apply (IH _ I) in H as (k' & r & -> & H). exists k, (k' :: r). rewrite <- app_assoc. split; [reflexivity|].
      apply node_cons. eauto.
  - intros (k & r & -> & H). apply node_cons in H as (c & I & H). exists (k, c).
    split; [eapply Permutation_in; [symmetry; apply sort_key_perm|exact I]|]. cbn [fst snd].
    destruct r as [|k' r]; [left; apply node_nil in H; subst; reflexivity|]. right. apply (IH _ I).
    exists k', r. rewrite <- app_assoc. auto.
Qed.

Lemma path_lt_app : forall p q q', path_lt q q' -> path_lt (p ++ q) (p ++ q').
Proof. induction p; intros; cbn; [auto|apply SameKey; auto]. Qed.

Lemma sorted_app : forall A (R : A -> A -> Prop) l l', StronglySorted R l -> StronglySorted R l' ->
  (forall x y, In x l -> In y l' -> R x y) -> StronglySorted R (l ++ l').
Proof.
  induction l as [|x l IH]; intros l' S S' H; [exact S'|]. cbn. inversion S; subst. constructor.
  - apply IH; auto. intros. apply H; [now right|auto].
  - rewrite Forall_forall in *. intros y I. apply in_app_iff in I as [I|I]; [auto|]. apply H; [now left|auto].
Qed.

Lemma rows_order : forall a p, distinct a -> in_order (rows p a).
Proof.
  intro a. induction a as [d ch IH] using account_ind'. intros p D. rewrite Forall_forall in IH.
  inversion D as [? ? N Dc]; subst. rewrite rows_unfold. unfold in_order.
  pose proof (sort_key_strict _ ch N) as S.
  assert (P : forall kc, In kc (sort_by_key ch) -> In kc ch).
  { intros kc. apply Permutation_in. apply sort_key_perm. }
  revert S P. generalize (sort_by_key ch). induction l as [|[k c] l IHl]; intros S P; [constructor|].
  inversion S as [|? ? S' F]; subst. cbn [flat_map fst snd]. rewrite map_app. apply sorted_app.
  - cbn. constructor.
    + apply (IH (k, c)); [apply P; left; reflexivity|]. eapply Dc. apply P. left. reflexivity.
    + rewrite Forall_forall. intros q I. apply in_map_iff in I as ([q' x] & <- & I). cbn.
      apply rows_iff in I as (k' & r & -> & _). rewrite <- app_assoc. apply path_lt_app. cbn. apply SameKey. constructor.
  - apply IHl; auto. intros. apply P. now right.
  - intros x y Ix Iy. apply in_map_iff in Iy as ([q' z] & <- & Iy). cbn.
    apply in_flat_map in Iy as ([k' c'] & I' & Iy).
    assert (exists r', q' = p ++ k' :: r') as [r' ->].
    { cbn in Iy. destruct Iy as [E|Iy]; [inversion E; subst; exists []; reflexivity|].
      apply rows_iff in Iy as (k2 & r & -> & _). exists (k2 :: r). now rewrite <- app_assoc. }
    assert (exists r', x = p ++ k :: r') as [r ->].
    { cbn in Ix. destruct Ix as [E|Ix]; [subst; exists []; reflexivity|].
      apply in_map_iff in Ix as ([q2 z2] & <- & Ix). apply rows_iff in Ix as (k2 & r & -> & _). exists (k2 :: r). cbn. now rewrite <- app_assoc. }
    apply path_lt_app. constructor. rewrite Forall_forall in F. apply (F _ I').
Qed.

(** ** The plain tree report *)
Lemma tree_rows : forall a p k c, c_depth c = length p ->
  tree pre false a c =
  TC (c_depth c) false (c_collapsed c) (c_collapsedDepth c)
     (fold_left add_line (map (tree_line pre) ((p ++ [k], acc_data a) :: rows (p ++ [k]) a)) (c_tree c)).
Proof.
  intro a. induction a as [d ch IH] using account_ind'. intros p k c L. rewrite Forall_forall in IH.
  cbn [tree]. rewrite !andb_false_r. cbn [c_depth c_isOnlyChild c_collapsed c_collapsedDepth c_tree].
  rewrite fold_children, rows_unfold.
  assert (P : forall kc, In kc (sort_by_key ch) -> In kc ch).
  { intros kc. apply Permutation_in. apply sort_key_perm. }
  assert (F : forall l n t, (forall kc, In kc l -> In kc ch) -> n = length (p ++ [k]) ->
    fold_left (fun c kc => tree pre false (snd kc) c) l (TC n false (c_collapsed c) (c_collapsedDepth c) t) =
    TC n false (c_collapsed c) (c_collapsedDepth c)
      (fold_left add_line (map (tree_line pre)
         (flat_map (fun kc => ((p ++ [k]) ++ [fst kc], acc_data (snd kc)) :: rows ((p ++ [k]) ++ [fst kc]) (snd kc)) l)) t)).
  { induction l as [|[k' c'] l IHl]; intros n t I E; [reflexivity|]. cbn [fold_left snd].
    rewrite (IH (k', c') (I _ (or_introl eq_refl)) (p ++ [k]) k') by (cbn; exact E).
    cbn [c_depth c_isOnlyChild c_collapsed c_collapsedDepth c_tree snd]. rewrite IHl; [|intros; apply I; now right|exact E].
    cbn [flat_map fst snd]. rewrite map_app, fold_left_app. reflexivity. }
  rewrite F; [|exact P|rewrite app_length; cbn; lia].
  cbn [c_depth c_isOnlyChild c_collapsed c_collapsedDepth c_tree pred map fold_left acc_data].
  do 3 f_equal. unfold tree_line, calculateSpaces. cbn [fst snd]. rewrite app_length. cbn [length].
  replace (length p + 1 - 1)%nat with (c_depth c) by lia. now rewrite Nat.mul_comm.
Qed.

Lemma Tree_rows : forall a, Tree pre false a = fold_left add_line (map (tree_line pre) (rows [] a)) [].
Proof.
  intros [d ch]. unfold Tree. cbn [acc_children]. rewrite fold_children, rows_unfold.
  assert (F : forall l t, 
    fold_left (fun c kc => tree pre false (snd kc) c) l (TC 0 false [] 0 t) =
    TC 0 false [] 0
      (fold_left add_line (map (tree_line pre)
         (flat_map (fun kc => ([] ++ [fst kc], acc_data (snd kc)) :: rows ([] ++ [fst kc]) (snd kc)) l)) t)).
  { induction l as [|[k' c'] l IHl]; intros t; [reflexivity|]. cbn [fold_left snd].
    rewrite (tree_rows c' [] k') by reflexivity. cbn [c_depth c_isOnlyChild c_collapsed c_collapsedDepth c_tree snd].
    rewrite IHl. cbn [flat_map fst snd]. rewrite map_app, fold_left_app. reflexivity. }
  rewrite F. reflexivity.
Qed.

Lemma add_lines : forall ls t, t <> [] -> fold_left add_line ls t = unlines (t :: ls).
Proof.
  assert (J : forall ls a b, unlines ((a ++ [newline] ++ b) :: ls) = unlines (a :: b :: ls)).
  { intros [|l ls] a b; cbn; [reflexivity|]. unfold unlines. cbn [join]. rewrite <- !app_assoc. reflexivity. }
  induction ls as [|l ls IH]; intros t N; [reflexivity|]. cbn [fold_left]. unfold add_line at 2.
  destruct t as [|x t]; [contradiction|]. rewrite IH by discriminate. apply J.
Qed.

Lemma add_lines_nil : forall ls, Forall (fun l => l <> []) ls -> fold_left add_line ls [] = unlines ls.
Proof. intros [|l ls] F; [reflexivity|]. inversion F; subst. cbn [fold_left]. cbn [add_line]. now apply add_lines. Qed.

(** ** The flat report *)
Fixpoint leaf_rows (p : list str) (a : account) : list (list str * adata) :=
  match acc_children a with
  | [] => [(p, acc_data a)]
  | ch => concat (map snd (sort_by_key (map (fun kc => (fst kc, leaf_rows (p ++ [fst kc]) (snd kc))) ch)))
  end.

Lemma leaf_rows_unfold : forall p d ch, ch <> [] -> leaf_rows p (Acc d ch) =
  flat_map (fun kc => leaf_rows (p ++ [fst kc]) (snd kc)) (sort_by_key ch).
Proof.
  intros p d ch N. cbn [leaf_rows acc_children]. destruct ch as [|x ch]; [contradiction|].
  rewrite (sort_key_map _ _ (fun kc => leaf_rows (p ++ [fst kc]) (snd kc))). rewrite map_map, flat_map_concat_map. reflexivity.
Qed.

Lemma flat_rows : forall a p s, flattenedTree pre a s = fold_left add_line (map (flat_line pre) (leaf_rows p a)) s.
Proof.
  intro a. induction a as [d ch IH] using account_ind'. intros p s. rewrite Forall_forall in IH.
  destruct ch as [|x ch]; [reflexivity|]. rewrite leaf_rows_unfold by discriminate. cbn [flattenedTree].
  rewrite fold_children.
  assert (P : forall kc, In kc (sort_by_key (x :: ch)) -> In kc (x :: ch)).
  { intros kc. apply Permutation_in. apply sort_key_perm. }
  revert P s. generalize (sort_by_key (x :: ch)). induction l as [|[k c] l IHl]; intros P s; [reflexivity|].
  cbn [fold_left flat_map snd fst]. rewrite map_app, fold_left_app, <- (IH (k, c)) by (apply P; left; reflexivity).
  apply IHl. intros. apply P. now right.
Qed.

Lemma leaf_rows_iff : forall a p q d, In (q, d) (leaf_rows p a) <-> exists r, q = p ++ r /\ subtree a r (Acc d []).
Proof.
  intro a. induction a as [d0 ch IH] using account_ind'. intros p q d. rewrite Forall_forall in IH.
  destruct ch as [|x ch].
  - cbn. split.
    + intros [E|[]]. inversion E; subst. exists []. rewrite app_nil_r. split; [reflexivity|constructor].
    + intros ([|k r] & -> & S); [apply subtree_nil in S; inversion S; subst; left; now rewrite app_nil_r|].
      apply subtree_cons in S as (c & [] & _).
  - rewrite leaf_rows_unfold by discriminate. rewrite in_flat_map. split.
    + intros ([k c] & I & H). apply (Permutation_in _ (sort_key_perm _ _)) in I. apply (IH _ I) in H as (r & -> & S).
      exists (k :: r). cbn [fst]. rewrite <- app_assoc. split; [reflexivity|]. apply subtree_cons. eauto.
    + intros ([|k r] & -> & S); [apply subtree_nil in S; discriminate|].
      apply subtree_cons in S as (c & I & S). exists (k, c).
      split; [eapply Permutation_in; [symmetry; apply sort_key_perm|exact I]|]. apply (IH _ I). exists r.
      cbn [fst]. rewrite <- app_assoc. auto.
Qed.

Lemma leaf_rows_order : forall a p, distinct a -> in_order (leaf_rows p a).
Proof.
  intro a. induction a as [d ch IH] using account_ind'. intros p D. rewrite Forall_forall in IH.
  inversion D as [? ? N Dc]; subst. destruct ch as [|x ch]; [repeat constructor|].
  rewrite leaf_rows_unfold by discriminate. unfold in_order.
  pose proof (sort_key_strict _ _ N) as S.
  assert (P : forall kc, In kc (sort_by_key (x :: ch)) -> In kc (x :: ch)).
  { intros kc. apply Permutation_in. apply sort_key_perm. }
  revert S P. generalize (sort_by_key (x :: ch)). induction l as [|[k c] l IHl]; intros S P; [constructor|].
  inversion S as [|? ? S' F]; subst. cbn [flat_map fst snd]. rewrite map_app. apply sorted_app.
  - apply (IH (k, c)); [apply P; left; reflexivity|]. eapply Dc. apply P. left. reflexivity.
  - apply IHl; auto. intros. apply P. now right.
  - intros u v Iu Iv. apply in_map_iff in Iv as ([q' z] & <- & Iv). apply in_map_iff in Iu as ([q2 z2] & <- & Iu). cbn.
    apply in_flat_map in Iv as ([k' c'] & I' & Iv). cbn in Iv.
    apply leaf_rows_iff in Iv as (r' & -> & _). apply leaf_rows_iff in Iu as (r & -> & _).
    rewrite <- !app_assoc. apply path_lt_app. constructor. rewrite Forall_forall in F. apply (F _ I').
Qed.

(** ** The collapsed tree report *)
Hypothesis pre_amount : forall d d', a_amount d = a_amount d' -> pre d = pre d'.

Lemma merged_one : forall d k c, merged (Acc d [(k, c)]) =
  Acc (AD (a_name d ++ [58] ++ a_name (acc_data (merged c))) (a_path (acc_data (merged c)))
          (a_amount (acc_data (merged c))) (a_postings (acc_data (merged c)))) (acc_children (merged c)).
Proof. intros. cbn [merged map fst snd]. destruct (merged c). reflexivity. Qed.

Lemma merged_many : forall d ch, Nat.eqb (length ch) 1 = false ->
  merged (Acc d ch) = Acc d (map (fun kc => (fst kc, merged (snd kc))) ch).
Proof. intros d [|x [|y ch]] H; [reflexivity|discriminate|]. cbn [merged map fst snd]. destruct (merged (snd x)). reflexivity. Qed.

Lemma plain_unfold : forall d ch n t,
  tree pre false (Acc d ch) (TC n false [] 0 t) =
  let c := fold_left (fun c kc => tree pre false (snd kc) c) (sort_by_key ch)
             (TC (S n) false [] 0 (add_line t (pre d ++ calculateSpaces n ++ a_name d))) in
  TC (pred (c_depth c)) (c_isOnlyChild c) (c_collapsed c) (c_collapsedDepth c) (c_tree c).
Proof. intros. cbn [tree]. rewrite !andb_false_r. cbn [c_depth c_isOnlyChild c_collapsed c_collapsedDepth c_tree]. rewrite fold_children. reflexivity. Qed.

Lemma collapse_tree : forall a,
  (forall n t, tree pre true a (TC n false [] 0 t) = tree pre false (merged a) (TC n false [] 0 t)) /\
  (forall n cc t, tree pre true a (TC n true cc 0 t) =
     fold_left (fun c kc => tree pre false (snd kc) c) (sort_by_key (acc_children (merged a)))
       (TC n false [] 0 (add_line t (pre (acc_data (merged a)) ++ cc ++ [58] ++ a_name (acc_data (merged a)))))).
Proof.
  intro a. induction a as [d ch IH] using account_ind'. rewrite Forall_forall in IH.
  assert (P : forall kc, In kc (sort_by_key ch) -> In kc ch).
  { intros kc. apply Permutation_in. apply sort_key_perm. }
  assert (Plain : forall c, tree pre true (Acc d ch) c =
    let descend c := fold_left (fun c kc => tree pre true (snd kc) c) (sort_by_key ch) c in
    let one := Nat.eqb (length ch) 1 in
    if c_isOnlyChild c then
      descend (if one then TC (c_depth c) true (c_collapsed c ++ [colon] ++ a_name d) (c_collapsedDepth c) (c_tree c)
        else TC (c_depth c) false [] (c_collapsedDepth c)
           (add_line (c_tree c) (pre d ++ calculateSpaces (c_collapsedDepth c) ++ c_collapsed c ++ [colon] ++ a_name d)))
    else
      let c1 := if one then TC (c_depth c) true (match c_collapsed c with
            | [] => calculateSpaces (c_depth c) ++ a_name d
            | cc => cc ++ [colon] ++ a_name d
            end) (c_collapsedDepth c) (c_tree c)
      else TC (c_depth c) false (c_collapsed c) (c_collapsedDepth c)
           (add_line (c_tree c) (pre d ++ calculateSpaces (c_depth c) ++ a_name d)) in
      let c2 := descend (TC (S (c_depth c1)) (c_isOnlyChild c1) (c_collapsed c1) (c_collapsedDepth c1) (c_tree c1)) in
      TC (pred (c_depth c2)) (c_isOnlyChild c2) (c_collapsed c2) (c_collapsedDepth c2) (c_tree c2)).
  { intro c. cbn [tree]. rewrite !andb_true_r, one_length, !fold_children. reflexivity. }
  assert (Many : forall n t,
    fold_left (fun c kc => tree pre true (snd kc) c) (sort_by_key ch) (TC n false [] 0 t) =
    fold_left (fun c kc => tree pre false (snd kc) c) (sort_by_key (map (fun kc => (fst kc, merged (snd kc))) ch)) (TC n false [] 0 t)).
  { intros n t. rewrite (sort_key_map _ _ (fun kc => merged (snd kc))), fold_map. cbn [snd].
    assert (Keep : forall a n t, exists t', tree pre false a (TC n false [] 0 t) = TC n false [] 0 t').
    { intros a0 n0 t0. rewrite (tree_rows a0 (repeat [] n0) []) by (cbn; now rewrite repeat_length). cbn. eauto. }
    revert t P. generalize (sort_by_key ch). induction l as [|[k c] l IHl]; intros t P; [reflexivity|].
    cbn [fold_left snd]. rewrite (proj1 (IH (k, c) (P _ (or_introl eq_refl)))). cbn [snd].
    destruct (Keep (merged c) n t) as [t' ->]. apply IHl. intros. apply P. now right. }
  destruct (Nat.eqb (length ch) 1) eqn:One.
  - destruct ch as [|[k c] [|y ch]]; [discriminate| |discriminate].
    destruct (IH (k, c) (or_introl eq_refl)) as [_ B]. cbn [snd] in B.
    change (sort_by_key [(k, c)]) with [(k, c)] in Plain. cbn [fold_left snd length Nat.eqb] in Plain.
    rewrite merged_one. split.
    + intros n t. rewrite Plain. cbn [c_depth c_isOnlyChild c_collapsed c_collapsedDepth c_tree]. rewrite B, plain_unfold. cbn [a_name].
      rewrite (pre_amount (AD _ _ _ _) (acc_data (merged c))) by reflexivity. rewrite <- app_assoc. reflexivity.
    + intros n cc t. rewrite Plain. cbn [c_depth c_isOnlyChild c_collapsed c_collapsedDepth c_tree]. rewrite B.
      cbn [acc_children acc_data a_name]. rewrite (pre_amount (AD _ _ _ _) (acc_data (merged c))) by reflexivity.
      rewrite <- !app_assoc. reflexivity.
  - rewrite merged_many by exact One. split.
    + intros n t. rewrite Plain, plain_unfold. cbn [c_depth c_isOnlyChild c_collapsed c_collapsedDepth c_tree]. rewrite Many. reflexivity.
    + intros n cc t. rewrite Plain. cbn [c_depth c_isOnlyChild c_collapsed c_collapsedDepth c_tree acc_children acc_data]. rewrite Many. reflexivity.
Qed.

Lemma Tree_collapse : forall a, Tree pre true a = Tree pre false (merged_below a).
Proof.
  intros [d ch]. unfold Tree, merged_below. cbn [acc_children acc_data]. rewrite !fold_children.
  rewrite (sort_key_map _ _ (fun kc => merged (snd kc))), fold_map. cbn [snd]. f_equal.
  assert (Keep : forall a n t, exists t', tree pre false a (TC n false [] 0 t) = TC n false [] 0 t').
  { intros a0 n0 t0. rewrite (tree_rows a0 (repeat [] n0) []) by (cbn; now rewrite repeat_length). cbn. eauto. }
  generalize (@nil Z) at 2 4. generalize (sort_by_key ch). induction l as [|[k c] l IHl]; intros t; [reflexivity|].
  cbn [fold_left snd]. rewrite (proj1 (collapse_tree c)).
  destruct (Keep (merged c) 0%nat t) as [t' ->]. apply IHl.
Qed.
End Reports.
