(** * Facts about the collapsed account report *)
From Verif Require Import Base Utf8 BaseFacts GoTime Strconv Journal Account Reporting Spec JournalFacts
  TreeSpec TreeFacts ReportSpec ReportFacts.

(** A row: the path, the indentation, the names on the line and the account. *)
Definition crow : Type := list str * (nat * list str * adata).

Fixpoint crows (p : list str) (n : nat) (names : list str) (a : account) : list crow :=
  let 'Acc d ch := a in
  match ch with
  | [kc] => crows (p ++ [fst kc]) n (names ++ [fst kc]) (snd kc)
  | _ => (p, (n, names, d)) ::
      concat (map snd (sort_by_key (map (fun kc => (fst kc, crows (p ++ [fst kc]) (S n) [fst kc] (snd kc))) ch)))
  end.

Lemma crows_one : forall p n names d k c, crows p n names (Acc d [(k, c)]) = crows (p ++ [k]) n (names ++ [k]) c.
Proof. reflexivity. Qed.

Lemma crows_many : forall p n names d ch, Nat.eqb (length ch) 1 = false -> crows p n names (Acc d ch) =
  (p, (n, names, d)) :: flat_map (fun kc => crows (p ++ [fst kc]) (S n) [fst kc] (snd kc)) (sort_by_key ch).
Proof.
  intros p n names d ch L.
  assert (E : crows p n names (Acc d ch) = (p, (n, names, d)) ::
      concat (map snd (sort_by_key (map (fun kc => (fst kc, crows (p ++ [fst kc]) (S n) [fst kc] (snd kc))) ch)))).
  { destruct ch as [|x [|y ch]]; [reflexivity|discriminate|reflexivity]. }
  rewrite E, (sort_key_map _ _ (fun kc => crows (p ++ [fst kc]) (S n) [fst kc] (snd kc))), map_map, flat_map_concat_map. reflexivity.
Qed.

Lemma named_below : forall d ch k c, named (Acc d ch) -> In (k, c) ch -> a_name (acc_data c) = k /\ named c.
Proof. intros d ch k c N I. inversion N as [? ? H]; subst. destruct (H _ _ I). auto. Qed.

Lemma join_snoc2 : forall sep pfx x y, join sep (pfx ++ [x ++ sep ++ y]) = join sep ((pfx ++ [x]) ++ [y]).
Proof.
  intros sep. induction pfx as [|z pfx IH]; intros x y; [reflexivity|].
  cbn [app join]. specialize (IH x y). destruct (pfx ++ [x ++ sep ++ y]) eqn:E1; [destruct pfx; discriminate|].
  destruct ((pfx ++ [x]) ++ [y]) eqn:E2; [destruct pfx; discriminate|]. now rewrite IH.
Qed.

Section Lines.
Variable pre : adata -> str.
Hypothesis pre_amount : forall d d', a_amount d = a_amount d' -> pre d = pre d'.

Definition cline (r : crow) : str :=
  let '(_, (n, names, d)) := r in pre d ++ rep (2 * n) 32 ++ join [58] names.

Lemma rows_children : forall p a b, acc_children a = acc_children b -> rows p a = rows p b.
Proof. intros p [d ch] [d' ch'] E. cbn in E. subst. reflexivity. Qed.

Lemma crows_lines : forall a p pfx mp mk, named a ->
  map cline (crows p (length mp) (pfx ++ [a_name (acc_data a)]) a) =
  (pre (acc_data (merged a)) ++ rep (2 * length mp) 32 ++ join [58] (pfx ++ [a_name (acc_data (merged a))]))
  :: map (tree_line pre) (rows (mp ++ [mk]) (merged a)).
Proof.
  intro a. induction a as [d ch IH] using account_ind'. intros p pfx mp mk N. rewrite Forall_forall in IH.
  destruct (Nat.eqb (length ch) 1) eqn:One.
  - destruct ch as [|[k c] [|y ch]]; [discriminate| |discriminate]. cbn [acc_data].
    destruct (named_below _ _ _ _ N (or_introl eq_refl)) as [Ek Nc].
    rewrite crows_one, merged_one, <- Ek.
    pose proof (IH (k, c) (or_introl eq_refl) (p ++ [a_name (acc_data c)]) (pfx ++ [a_name d]) mp mk Nc) as K. cbn [snd] in K. rewrite K.
    cbn [acc_data a_name].
    rewrite (pre_amount (AD _ _ _ _) (acc_data (merged c))) by reflexivity.
    rewrite <- join_snoc2. do 2 f_equal. now apply rows_children.
  - rewrite crows_many, merged_many by exact One. cbn [acc_data map]. f_equal. rewrite rows_unfold.
    rewrite (sort_key_map _ _ (fun kc => merged (snd kc))).
    assert (P : forall kc, In kc (sort_by_key ch) -> In kc ch).
    { intros kc. apply Permutation_in. apply sort_key_perm. }
    revert P. generalize (sort_by_key ch). induction l as [|[k c] l IHl]; intro P; [reflexivity|].
    assert (I : In (k, c) ch) by (apply P; left; reflexivity). destruct (named_below _ _ _ _ N I) as [Ek Nc].
    cbn [flat_map map fst snd]. rewrite !map_app, IHl by (intros; apply P; now right).
    change (?x :: ?y ++ ?z) with ((x :: y) ++ z). f_equal. cbn [map].
    pose proof (IH (k, c) I (p ++ [k]) [] (mp ++ [mk]) k Nc) as K. cbn [snd app] in K. rewrite Ek in K.
    replace (length (mp ++ [mk])) with (S (length mp)) in K by (rewrite app_length; cbn; lia). rewrite K.
    f_equal. unfold tree_line. cbn [fst snd join]. rewrite !app_length. cbn [length].
    replace (length mp + 1 + 1 - 1)%nat with (S (length mp)) by lia. reflexivity.
Qed.

(** The rows of the whole report. *)
Definition top_rows (a : account) : list crow :=
  flat_map (fun kc => crows [fst kc] 0 [fst kc] (snd kc)) (sort_by_key (acc_children a)).

Lemma Tree_crows : forall a, named a -> Tree pre true a = fold_left add_line (map cline (top_rows a)) [].
Proof.
  intros [d ch] N. rewrite (Tree_collapse pre pre_amount), Tree_rows. f_equal. unfold merged_below, top_rows.
  cbn [acc_data acc_children]. rewrite rows_unfold, (sort_key_map _ _ (fun kc => merged (snd kc))).
  assert (P : forall kc, In kc (sort_by_key ch) -> In kc ch).
  { intros kc. apply Permutation_in. apply sort_key_perm. }
  revert P. generalize (sort_by_key ch). induction l as [|[k c] l IHl]; intro P; [reflexivity|].
  destruct (named_below _ _ _ _ N (P _ (or_introl eq_refl))) as [Ek Nc].
  cbn [flat_map map fst snd]. rewrite !map_app, IHl by (intros; apply P; now right). f_equal.
  pose proof (crows_lines c [k] [] [] k Nc) as K. cbn [app length] in K. rewrite Ek in K. rewrite K.
  reflexivity.
Qed.
End Lines.

(** ** Which rows *)

Lemma snoc_subtree : forall a q b, distinct a -> subtree a q b -> forall k c, In (k, c) (acc_children b) -> subtree a (q ++ [k]) c.
Proof.
  intros a q b _ H. induction H as [[d ch]|d ch k0 c0 q b I H IH]; intros k c Ic.
  - cbn in *. econstructor; [exact Ic|constructor].
  - cbn. econstructor; [exact I|auto].
Qed.

Lemma snoc_child : forall a q d ch k x, distinct a -> subtree a q (Acc d ch) -> node a (q ++ [k]) x -> exists c, In (k, c) ch.
Proof.
  intros a q d ch k x D S N. apply node_subtree in N as (b & Sb & _).
  apply subtree_find in S; [|exact D]. apply subtree_find in Sb; [|exact D]. rewrite find_at_app, S in Sb.
  cbn [find_at acc_children] in Sb. destruct (get k ch) as [c|] eqn:G; [|discriminate]. exists c. now apply get_in.
Qed.

Lemma alone_iff : forall a q d ch, distinct a -> subtree a q (Acc d ch) ->
  (alone (fun r => exists x, node a r x) q <-> length ch = 1%nat).
Proof.
  intros a q d ch D S. pose proof (subtree_distinct _ _ _ D S) as Dq. inversion Dq as [? ? Nd _]; subst.
  assert (K : forall k, (exists x, node a (q ++ [k]) x) <-> exists c, In (k, c) ch).
  { intro k. split; [intros [x N]; exact (snoc_child a q d ch k x D S N)|]. intros [c I]. exists (acc_data c).
    apply subtree_node. exact (snoc_subtree a q _ D S k c I). }
  split.
  - intros [k H]. destruct ch as [|[k1 c1] [|[k2 c2] ch]].
    + exfalso. destruct (proj1 (K k) (proj2 (H k) eq_refl)) as [c []].
    + reflexivity.
    + exfalso. assert (k1 = k) by (apply H, K; exists c1; left; reflexivity).
      assert (k2 = k) by (apply H, K; exists c2; right; left; reflexivity). subst.
      inversion Nd as [|? ? X _]; subst. apply X. left. reflexivity.
  - destruct ch as [|[k c] [|y ch]]; try discriminate. intros _. exists k. intro k'. rewrite K. split.
    + intros [c' [E|[]]]. now inversion E.
    + intros ->. exists c. left. reflexivity.
Qed.

Lemma folded_snoc : forall one q n names, folded one q n names -> q <> [].
Proof. intros one q n names H. destruct H; try discriminate; destruct q; discriminate. Qed.

Lemma folded_fun : forall one q n names, folded one q n names -> forall n' names', folded one q n' names' -> n = n' /\ names = names'.
Proof.
  intros one q n names H. induction H as [k|q k n names H IH O|q k n names H IH O]; intros n' names' H'.
  - inversion H' as [k0 E|q0 k0 n0 nm H0 O0 E|q0 k0 n0 nm H0 O0 E]; subst.
    + auto.
    + exfalso. apply folded_snoc in H0. destruct q0 as [|? [|? ?]]; try discriminate. contradiction.
    + exfalso. apply folded_snoc in H0. destruct q0 as [|? [|? ?]]; try discriminate. contradiction.
  - apply folded_snoc in H as Nq. inversion H' as [k0 E|q0 k0 n0 nm H0 O0 E|q0 k0 n0 nm H0 O0 E]; subst.
    + exfalso. destruct q as [|? [|? ?]]; try discriminate. contradiction.
    + apply app_inj_tail in E as [-> ->]. destruct (IH _ _ H0) as [-> ->]. auto.
    + apply app_inj_tail in E as [-> ->]. contradiction.
  - apply folded_snoc in H as Nq. inversion H' as [k0 E|q0 k0 n0 nm H0 O0 E|q0 k0 n0 nm H0 O0 E]; subst.
    + exfalso. destruct q as [|? [|? ?]]; try discriminate. contradiction.
    + apply app_inj_tail in E as [-> ->]. contradiction.
    + apply app_inj_tail in E as [-> ->]. destruct (IH _ _ H0) as [-> ->]. auto.
Qed.

Lemma folded_ext : forall one one' q n names, (forall r, r <> [] -> prefix r q -> (one r <-> one' r)) ->
  folded one q n names -> folded one' q n names.
Proof.
  intros one one' q n names E H. induction H as [k|q k n names H IH O|q k n names H IH O]; [constructor| |].
  - apply FoldOn.
    + apply IH. intros r Nr [x ->]. apply E; [exact Nr|]. exists (x ++ [k]). now rewrite app_assoc.
    + apply E; [eapply folded_snoc; eauto|now exists [k]|exact O].
  - eapply FoldNew.
    + apply IH. intros r Nr [x ->]. apply E; [exact Nr|]. exists (x ++ [k]). now rewrite app_assoc.
    + intro X. apply O. apply E; [eapply folded_snoc; eauto|now exists [k]|exact X].
Qed.

Section Which.
Variable t : account.
Hypothesis D : distinct t.
Let there (r : list str) : Prop := exists x, node t r x.

Lemma crows_iff : forall a p n names, subtree t p a -> folded (alone there) p n names ->
  forall q m nm d, In (q, (m, nm, d)) (crows p n names a) <->
    prefix p q /\ node t q d /\ ~ alone there q /\ folded (alone there) q m nm.
Proof.
  intro a. induction a as [d0 ch IH] using account_ind'. intros p n names Sp Fp q m nm d. rewrite Forall_forall in IH.
  pose proof (alone_iff t p d0 ch D Sp) as A. fold there in A.
  assert (Sub : forall k c, In (k, c) ch -> subtree t (p ++ [k]) c) by (intros; eapply snoc_subtree; eauto).
  assert (Child : forall r x, node t (p ++ r) x -> r <> [] -> exists k c r', r = k :: r' /\ In (k, c) ch).
  { intros r x N Nr. destruct r as [|k r]; [contradiction|]. apply node_subtree in N as (b & Sb & _).
    apply subtree_find in Sb; [|exact D]. pose proof Sp as Sp'. apply subtree_find in Sp'; [|exact D].
    rewrite find_at_app, Sp' in Sb. cbn [find_at acc_children] in Sb. destruct (get k ch) as [c|] eqn:G; [|discriminate].
    exists k, c, r. split; [reflexivity|]. now apply get_in. }
  assert (Down : forall k r, prefix (p ++ [k]) (p ++ k :: r)).
  { intros k r. exists r. now rewrite <- app_assoc. }
  assert (Weak : forall k q0, prefix (p ++ [k]) q0 -> prefix p q0).
  { intros k q0 [r ->]. exists ([k] ++ r). now rewrite app_assoc. }
  destruct (Nat.eqb (length ch) 1) eqn:One.
  - apply Nat.eqb_eq in One. apply A in One as Al. destruct ch as [|[k c] [|y ch]]; try discriminate. rewrite crows_one.
    rewrite (IH (k, c) (or_introl eq_refl) (p ++ [k]) n (names ++ [k])); [|apply Sub; left; reflexivity|now apply FoldOn]. split.
    + intros (Pq & R). split; [eauto|exact R].
    + intros (Pq & N & Na & F). split; [|auto]. destruct Pq as [r ->].
      destruct r as [|k' r]; [rewrite app_nil_r in Na; contradiction|].
      destruct (Child _ _ N ltac:(discriminate)) as (k2 & c2 & r' & E & I). inversion E; subst. destruct I as [I|[]]. inversion I; subst. apply Down.
  - assert (Na0 : ~ alone there p) by (intro X; apply A in X; rewrite X in One; discriminate).
    rewrite crows_many by exact One. cbn [In]. rewrite in_flat_map. split.
    + intros [E|([k c] & I & H)].
      * inversion E; subst. split; [exists []; now rewrite app_nil_r|]. split; [exact (subtree_node _ _ _ Sp)|]. auto.
      * apply (Permutation_in _ (sort_key_perm _ _)) in I. cbn [fst snd] in H.
        apply (IH _ I) in H; [destruct H as (Pq & R); split; [eauto|exact R]|now apply Sub|eapply FoldNew; eauto].
    + intros (Pq & N & Na & F). destruct Pq as [r ->]. destruct r as [|k r].
      * left. rewrite app_nil_r in *. destruct (folded_fun _ _ _ _ Fp _ _ F) as [-> ->].
        f_equal. f_equal. apply (node_fun t p); [exact D|exact (subtree_node _ _ _ Sp)|exact N].
      * right. destruct (Child _ _ N ltac:(discriminate)) as (k2 & c & r' & E & I). inversion E; subst k2 r'. exists (k, c).
        split; [eapply Permutation_in; [symmetry; apply sort_key_perm|exact I]|]. cbn [fst snd].
        apply (IH _ I); [now apply Sub|eapply FoldNew; eauto|]. split; [apply Down|auto].
Qed.

Lemma top_rows_iff : forall q m nm d, In (q, (m, nm, d)) (top_rows t) <->
  q <> [] /\ node t q d /\ ~ alone there q /\ folded (alone there) q m nm.
Proof.
  intros q m nm d. unfold top_rows. rewrite in_flat_map.
  assert (Sub : forall k c, In (k, c) (acc_children t) -> subtree t [k] c).
  { intros k c I. apply (snoc_subtree t [] t D); [constructor|exact I]. }
  split.
  - intros ([k c] & I & H). apply (Permutation_in _ (sort_key_perm _ _)) in I. cbn [fst snd] in H.
    apply crows_iff in H as (Pq & R); [|now apply Sub|constructor]. split; [|exact R]. destruct Pq as [r ->]. discriminate.
  - intros (Nq & N & Na & F). destruct q as [|k r]; [contradiction|]. 
    assert (X : exists c, In (k, c) (acc_children t)).
    { clear - N. destruct t as [d0 ch]. apply node_cons in N as (c & I & _). eauto. }
    destruct X as [c I]. exists (k, c). split; [eapply Permutation_in; [symmetry; apply sort_key_perm|exact I]|].
    cbn [fst snd]. apply crows_iff; [now apply Sub|constructor|]. split; [now exists r|auto].
Qed.

Lemma crows_order : forall a p n names, subtree t p a -> folded (alone there) p n names ->
  StronglySorted path_lt (map fst (crows p n names a)).
Proof.
  intro a. induction a as [d0 ch IH] using account_ind'. intros p n names Sp Fp. rewrite Forall_forall in IH.
  assert (Sub : forall k c, In (k, c) ch -> subtree t (p ++ [k]) c) by (intros; eapply snoc_subtree; eauto).
  pose proof (alone_iff t p d0 ch D Sp) as A. fold there in A.
  destruct (Nat.eqb (length ch) 1) eqn:One.
  - apply Nat.eqb_eq in One. apply A in One as Al. destruct ch as [|[k c] [|y ch]]; try discriminate. rewrite crows_one.
    apply (IH (k, c)); [left; reflexivity|apply Sub; left; reflexivity|now apply FoldOn].
  - assert (Na : ~ alone there p) by (intro X; apply A in X; rewrite X in One; discriminate).
    rewrite crows_many by exact One. cbn [map fst].
    assert (P : forall kc, In kc (sort_by_key ch) -> In kc ch).
    { intros kc. apply Permutation_in. apply sort_key_perm. }
    assert (Fst : forall k c, In (k, c) ch -> forall q, In q (map fst (crows (p ++ [k]) (S n) [k] c)) -> exists r, q = p ++ k :: r).
    { intros k c I q H. apply in_map_iff in H as ([q' [[m nm] d]] & <- & H).
      apply crows_iff in H as ([r ->] & _); [|now apply Sub|eapply FoldNew; eauto]. exists r. cbn. now rewrite <- app_assoc. }
    constructor.
    + pose proof (subtree_distinct _ _ _ D Sp) as Dq. inversion Dq as [? ? Nd _]; subst.
      pose proof (sort_key_strict _ ch Nd) as S. revert S P. generalize (sort_by_key ch).
      induction l as [|[k c] l IHl]; intros S P; [constructor|]. inversion S as [|? ? S' F]; subst.
      assert (I : In (k, c) ch) by (apply P; left; reflexivity).
      cbn [flat_map fst snd]. rewrite map_app. apply sorted_app.
      * apply (IH (k, c)); [exact I|now apply Sub|eapply FoldNew; eauto].
      * apply IHl; auto. intros. apply P. now right.
      * intros x y Ix Iy. destruct (Fst _ _ I _ Ix) as [r ->].
        apply in_map_iff in Iy as (z & <- & Iy). apply in_flat_map in Iy as ([k' c'] & I' & Iy). cbn [fst snd] in Iy.
        destruct (Fst _ _ (P _ (or_intror I')) (fst z)) as [r' ->]; [now apply in_map|].
        apply path_lt_app. constructor. rewrite Forall_forall in F. apply (F _ I').
    + rewrite Forall_forall. intros q H. apply in_map_iff in H as (z & <- & H).
      apply in_flat_map in H as ([k c] & I & H). cbn [fst snd] in H.
      destruct (Fst _ _ (P _ I) (fst z)) as [r ->]; [now apply in_map|].
      rewrite <- (app_nil_r p) at 1. apply path_lt_app. constructor.
Qed.

Lemma top_rows_order : StronglySorted path_lt (map fst (top_rows t)).
Proof.
  unfold top_rows.
  assert (Sub : forall k c, In (k, c) (acc_children t) -> subtree t [k] c).
  { intros k c I. apply (snoc_subtree t [] t D); [constructor|exact I]. }
  assert (P : forall kc, In kc (sort_by_key (acc_children t)) -> In kc (acc_children t)).
  { intros kc. apply Permutation_in. apply sort_key_perm. }
  assert (Nd : NoDup (map fst (acc_children t))) by (destruct D; assumption).
  assert (Fst : forall k c, In (k, c) (acc_children t) -> forall q, In q (map fst (crows [k] 0 [k] c)) -> exists r, q = k :: r).
  { intros k c I q H. apply in_map_iff in H as ([q' [[m nm] d]] & <- & H).
    apply crows_iff in H as ([r ->] & _); [|now apply Sub|constructor]. now exists r. }
  pose proof (sort_key_strict _ _ Nd) as S. revert S P. generalize (sort_by_key (acc_children t)).
  induction l as [|[k c] l IHl]; intros S P; [constructor|]. inversion S as [|? ? S' F]; subst.
  assert (I : In (k, c) (acc_children t)) by (apply P; left; reflexivity).
  cbn [flat_map fst snd]. rewrite map_app. apply sorted_app.
  - apply crows_order; [now apply Sub|constructor].
  - apply IHl; auto. intros. apply P. now right.
  - intros x y Ix Iy. destruct (Fst _ _ I _ Ix) as [r ->].
    apply in_map_iff in Iy as (z & <- & Iy). apply in_flat_map in Iy as ([k' c'] & I' & Iy). cbn [fst snd] in Iy.
    destruct (Fst _ _ (P _ (or_intror I')) (fst z)) as [r' ->]; [now apply in_map|].
    constructor. rewrite Forall_forall in F. apply (F _ I').
Qed.
End Which.
