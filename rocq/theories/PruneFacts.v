(** * Finding and removing accounts *)
From Verif Require Import Base BaseFacts GoTime Strconv Journal Account Spec JournalFacts TreeSpec TreeFacts.

(** ** PruneChildren *)
Lemma prune_node : forall a t c q x, c <= t ->
  (node (pruneChildren t c a) q x <-> node a q x /\ c + Z.of_nat (length q) <= t).
Proof.
  intro a. induction a as [d ch IH] using account_ind'. intros t c q x Le. rewrite Forall_forall in IH. cbn [pruneChildren].
  destruct q as [|k q].
  { destruct (c =? t); rewrite !node_nil; cbn; split; [|tauto| |tauto]; intro; split; auto; lia. }
  destruct (Z.eqb_spec c t) as [->|Ne]; rewrite !node_cons; cbn [length].
  - split; [intros (x' & [] & _)|]. intros [_ L]. lia.
  - split.
    + intros (x' & I & H). apply in_map_iff in I as ([k' c'] & E & I). cbn in E. inversion E; subst.
      apply (IH _ I) in H; [|lia]. destruct H as [H L]. split; [eauto|]. lia.
    + intros [(x' & I & H) L]. exists (pruneChildren t (c + 1) x'). split.
      * apply in_map_iff. exists (k, x'). auto.
      * apply (IH _ I); [lia|]. split; [exact H|lia].
Qed.

Lemma prune_deep : forall a t c, t < c -> pruneChildren t c a = a.
Proof.
  intro a. induction a as [d ch IH] using account_ind'. intros t c L. rewrite Forall_forall in IH. cbn [pruneChildren].
  destruct (Z.eqb_spec c t); [lia|]. f_equal. rewrite <- (map_id ch) at 2. apply map_ext_in. intros [k x] I. cbn.
  f_equal. apply (IH _ I). lia.
Qed.

Lemma prune_distinct : forall a t c, distinct a -> distinct (pruneChildren t c a).
Proof.
  intro a. induction a as [d ch IH] using account_ind'. intros t c D. rewrite Forall_forall in IH.
  inversion D as [? ? N Dc]; subst. cbn [pruneChildren]. destruct (c =? t).
  - constructor; [constructor|intros ? ? []].
  - constructor.
    + rewrite map_map. cbn. exact N.
    + intros k x I. apply in_map_iff in I as ([k' x'] & E & I). inversion E; subst. apply (IH _ I). eauto.
Qed.

(** ** RemoveChildren *)
Lemma fold_orb : forall A (f : A -> bool) l b, fold_left (fun m r => m || f r) l b = b || existsb f l.
Proof.
  induction l as [|x l IH]; intro b; cbn; [now rewrite orb_false_r|]. rewrite IH. now rewrite orb_assoc.
Qed.

Lemma remove_found : forall m a, snd (removeChildren m a) = true <-> exists q b, subtree a q b /\ m b = true.
Proof.
  intros m a. induction a as [d ch IH] using account_ind'. rewrite Forall_forall in IH. cbn [removeChildren snd].
  rewrite fold_orb, orb_true_iff, existsb_exists. split.
  - intros [H|(r & I & H)].
    + exists [], (Acc d ch). split; [constructor|exact H].
    + apply in_map_iff in I as ([k c] & <- & I). cbn in H. apply (IH _ I) in H as (q & b & S & M).
      exists (k :: q), b. split; [econstructor; eauto|exact M].
  - intros (q & b & S & M). destruct q as [|k q]; [apply subtree_nil in S; subst; left; exact M|]. right.
    apply subtree_cons in S as (c & I & S).
    exists (k, removeChildren m c). split; [apply in_map_iff; exists (k, c); split; [reflexivity|assumption]|].
    cbn. apply (IH _ I). eauto.
Qed.

Lemma remove_node : forall m a q x, distinct a ->
  (node (fst (removeChildren m a)) q x <->
   node a q x /\ (q = [] \/ exists r b, subtree a (q ++ r) b /\ m b = true)).
Proof.
  intros m a. induction a as [d ch IH] using account_ind'. intros q x D. rewrite Forall_forall in IH.
  inversion D as [? ? N Dc]; subst. cbn [removeChildren fst].
  destruct q as [|k q]; [rewrite !node_nil; cbn; tauto|]. rewrite !node_cons. split.
  - intros (c' & I & H). apply in_map_iff in I as ([k' r] & E & I). cbn in E. inversion E; subst k' c'. clear E.
    apply filter_In in I as [I B]. cbn in B. apply in_map_iff in I as ([k' c] & E' & I). cbn in E'. inversion E'; subst k' r. clear E'.
    apply (IH _ I q x (Dc _ _ I)) in H as [H C]. cbn [snd] in *. split; [eauto|]. right.
    destruct C as [->|(r & y & S & M)].
    + apply remove_found in B as (r & y & S & M). exists r, y. split; [econstructor; eauto|exact M].
    + exists r, y. split; [econstructor; eauto|exact M].
  - intros [(c & I & H) C]. destruct C as [C|(r & y & S & M)]; [discriminate|].
    cbn [app] in S. apply subtree_cons in S as (c2 & I2 & S).
    assert (c2 = c) as ->.
    { apply (in_get _ _ _ _ N) in I, I2. congruence. }
    exists (fst (removeChildren m c)). split.
    + apply in_map_iff. exists (k, removeChildren m c). split; [reflexivity|]. apply filter_In. split.
      * apply in_map_iff. exists (k, c). split; [reflexivity|assumption].
      * cbn. apply remove_found. eauto.
    + apply (IH _ I); [eauto|]. split; [assumption|]. right. eauto.
Qed.

(** ** FindAccounts *)
Lemma in_ord : forall ord p A (l : list A) x, some_order ord -> (In x (ord p A l) <-> In x l).
Proof. intros. split; apply Permutation_in; [|symmetry]; apply H. Qed.

Lemma find_iff : forall ord m a p q, some_order ord ->
  (In q (findAccounts ord m p a) <-> exists r b, q = p ++ r /\ subtree a r b /\ m b = true).
Proof.
  intros ord m a. induction a as [d ch IH] using account_ind'. intros p q O. rewrite Forall_forall in IH.
  cbn [findAccounts acc_children]. rewrite in_app_iff, in_concat. split.
  - intros [H|(l & Il & Iq)].
    + destruct (m (Acc d ch)) eqn:M; [|contradiction]. destruct H as [<-|[]]. exists [], (Acc d ch).
      rewrite app_nil_r. repeat split; auto. constructor.
    + apply in_ord in Il; [|exact O]. apply in_map_iff in Il as ([k c] & <- & I). cbn in Iq.
      apply (IH _ I) in Iq; [|exact O]. destruct Iq as (r & b & -> & S & M).
      exists (k :: r), b. rewrite <- app_assoc. repeat split; auto. econstructor; eauto.
  - intros (r & b & -> & S & M). destruct r as [|k r].
    + apply subtree_nil in S. subst b. left. rewrite M, app_nil_r. left. reflexivity.
    + apply subtree_cons in S as (c & I & S). right. exists (findAccounts ord m (p ++ [k]) c). split.
      * apply in_ord; [exact O|]. apply in_map_iff. exists (k, c). split; [reflexivity|assumption].
      * apply (IH _ I); [exact O|]. exists r, b. rewrite <- app_assoc. auto.
Qed.

Lemma find_nodup : forall ord m a p, some_order ord -> distinct a -> NoDup (findAccounts ord m p a).
Proof.
  intros ord m a. induction a as [d ch IH] using account_ind'. intros p O D. rewrite Forall_forall in IH.
  inversion D as [? ? N Dc]; subst. cbn [findAccounts acc_children].
  set (ls := map (fun kc => findAccounts ord m (p ++ [fst kc]) (snd kc)) ch).
  assert (P : Permutation (concat (ord p _ ls)) (concat ls)).
  { pose proof (O p _ ls) as P. clear - P. induction P; cbn; auto.
    - now apply Permutation_app_head.
    - rewrite !app_assoc. apply Permutation_app_tail. apply Permutation_app_comm.
    - etransitivity; eauto. }
  assert (C : NoDup (concat ls)).
  { subst ls. clear P D. induction ch as [|[k c] ch IHch]; [constructor|]. cbn [map concat].
    inversion N; subst. 
    assert (Y : NoDup (concat (map (fun kc => findAccounts ord m (p ++ [fst kc]) (snd kc)) ch))).
    { apply IHch; auto; [intros; apply IH; [now right|auto|auto]|].
      intros k' c' I. eapply Dc. right. eauto. }
    assert (X : forall x, In x (findAccounts ord m (p ++ [k]) c) ->
              ~ In x (concat (map (fun kc => findAccounts ord m (p ++ [fst kc]) (snd kc)) ch))).
    { intros x I1 I2. apply find_iff in I1 as (r & b & -> & _); [|exact O].
      apply in_concat in I2 as (l & Il & I2). apply in_map_iff in Il as ([k' c'] & <- & I'). cbn in I2.
      apply find_iff in I2 as (r' & b' & E & _); [|exact O]. rewrite <- !app_assoc in E. apply app_inv_head in E.
      inversion E; subst. apply H1. apply in_map_iff. exists (k', c'). auto. }
    assert (Z : NoDup (findAccounts ord m (p ++ [k]) c)).
    { apply (IH (k, c)); [left; reflexivity|exact O|]. eapply Dc. left. reflexivity. }
    cbn [fst snd]. revert X Z. generalize (findAccounts ord m (p ++ [k]) c). intros l X Z.
    induction l as [|x l IHl]; [exact Y|]. cbn. inversion Z; subst. constructor.
    - intro C. apply in_app_iff in C as [C|C]; [contradiction|]. eapply X; eauto. left. reflexivity.
    - apply IHl; auto. intros y I. apply X. now right. }
  apply (Permutation_NoDup (l := (if m (Acc d ch) then [p] else []) ++ concat ls)).
  { apply Permutation_app_head. now symmetry. }
  destruct (m (Acc d ch)); [|exact C]. cbn. constructor; [|exact C].
  intro I. apply in_concat in I as (l & Il & I). apply in_map_iff in Il as ([k c] & <- & _). cbn in I.
  apply find_iff in I as (r & b & E & _); [|exact O]. rewrite <- app_assoc in E.
  rewrite <- (app_nil_r p) in E at 1. apply app_inv_head in E. discriminate.
Qed.

(** ** Unlink *)
Lemma nodup_del : forall V k (l : list (str * V)), NoDup (map fst l) -> NoDup (map fst (del k l)).
Proof.
  intros V k l. unfold del. induction l as [|[k' v] l IH]; intro N; cbn; [constructor|]. inversion N; subst.
  destruct (str_eqb k k'); [auto|]. cbn. constructor; auto. intro I. apply H1.
  apply in_map_iff in I as ([k2 v2] & E & I). cbn in E. subst k2. apply in_assoc_del in I; [|apply str_eqb_eq].
  apply in_map_iff. exists (k', v2). tauto.
Qed.

Lemma in_del : forall V k (l : list (str * V)) k' v, In (k', v) (del k l) <-> In (k', v) l /\ k' <> k.
Proof. intros. unfold del. rewrite in_assoc_del by apply str_eqb_eq. reflexivity. Qed.

Lemma unlink_spec : forall p a, distinct a -> distinct (unlink_at p a) /\
  forall q x, node (unlink_at p a) q x <-> node a q x /\ ~ (p <> [] /\ prefix p q).
Proof.
  induction p as [|k p IH]; intros a D; cbn [unlink_at]; [split; [exact D|]; intros; tauto|].
  destruct a as [d ch]. inversion D as [? ? N Dc]; subst.
  assert (Z : forall b x, acc_data b = d -> (node b [] x <-> node (Acc d ch) [] x /\ ~ (k :: p <> [] /\ prefix (k :: p) []))).
  { intros b x E. rewrite !node_nil. cbn. rewrite E. split; [|tauto]. intro. split; [auto|]. intros [_ [r X]]. discriminate. }
  destruct p as [|k2 p].
  - split.
    + constructor; [now apply nodup_del|]. intros k' c I. apply in_del in I. eapply Dc. apply I.
    + intros [|k' q] x; [now apply Z|]. rewrite !node_cons. split.
      * intros (c & I & H). apply in_del in I as [I Ne]. split; [eauto|]. intros [_ [r E]]. inversion E. congruence.
      * intros [(c & I & H) P]. exists c. split; [|exact H]. apply in_del. split; [exact I|]. intros ->.
        apply P. split; [discriminate|]. exists q. reflexivity.
  - destruct (get k ch) as [c|] eqn:G.
    + pose proof (get_in _ _ _ _ G) as I. destruct (IH c (Dc _ _ I)) as [Dn Hn].
      split.
      * constructor; [now apply nodup_put|]. intros k' c' I'. apply in_put in I'; auto.
        destruct I' as [[-> ->]|[_ I']]; eauto.
      * intros [|k' q] x; [now apply Z|]. rewrite !node_cons. split.
        -- intros (c' & I' & H). apply in_put in I'; auto. destruct I' as [[-> ->]|[Ne I']].
           ++ apply Hn in H as [H P]. split; [eauto|]. intros [_ [r E]]. inversion E; subst.
              apply P. split; [discriminate|]. exists r. reflexivity.
           ++ split; [eauto|]. intros [_ [r E]]. inversion E. congruence.
        -- intros [(c' & I' & H) P]. destruct (str_eq_dec k' k) as [->|Ne].
           ++ assert (c' = c) as -> by (apply (in_get _ _ _ _ N) in I'; congruence).
              exists (unlink_at (k2 :: p) c). split; [apply get_in; apply get_put_same|]. apply Hn. split; [assumption|].
              intros [_ [r E]]. apply P. split; [discriminate|]. exists r. rewrite E. reflexivity.
           ++ exists c'. split; [|exact H]. apply get_in. rewrite get_put_other by congruence. now apply in_get.
    + split; [exact D|]. intros q x. split; [|tauto]. intro H. split; [exact H|]. intros [_ [r E]]. subst q.
      apply node_cons in H as (c & I & _). apply (in_get _ _ _ _ N) in I. congruence.
Qed.

Lemma unlink_all : forall (skip : list str -> bool) ps a, distinct a ->
  let a' := fold_left (fun t p => if skip p then t else unlink_at p t) ps a in
  distinct a' /\
  forall q x, node a' q x <-> node a q x /\ forall p, In p ps -> skip p = false -> ~ (p <> [] /\ prefix p q).
Proof.
  intros skip. induction ps as [|p ps IH]; intros a D; cbn [fold_left].
  - cbn. split; [exact D|]. intros q x. split; [|tauto]. intro H. split; [exact H|]. intros ? [].
  - destruct (skip p) eqn:S.
    + destruct (IH a D) as [D' H']. split; [exact D'|]. intros q x. rewrite H'. split.
      * intros [Hn F]. split; [exact Hn|]. intros p' [<-|I] Sp; [congruence|auto].
      * intros [Hn F]. split; [exact Hn|]. intros p' I Sp. apply F; [now right|exact Sp].
    + destruct (unlink_spec p a D) as [Du Hu]. destruct (IH _ Du) as [D' H']. split; [exact D'|].
      intros q x. rewrite H', Hu. split.
      * intros [[Hn P] F]. split; [exact Hn|]. intros p' [<-|I] Sp; [exact P|auto].
      * intros [Hn F]. split; [split; [exact Hn|]|]; [apply F; [now left|exact S]|].
        intros p' I Sp. apply F; [now right|exact Sp].
Qed.

(** ** RemoveEmptyChildren *)
Lemma remove_empty_spec : forall ord a, some_order ord -> distinct a ->
  distinct (removeEmptyChildren ord a) /\
  forall q x, node (removeEmptyChildren ord a) q x <->
    node a q x /\ forall p d, p <> [] -> prefix p q -> node a p d ->
                  am_quantity (a_amount d) <> 0 \/ last p [] = RootID.
Proof.
  intros ord a O D. unfold removeEmptyChildren.
  destruct (unlink_all (fun p => str_eqb (last_key a p) RootID)
             (findAccounts ord (fun x => am_quantity (a_amount (acc_data x)) =? 0) [] a) a D) as [D' H].
  split; [exact D'|]. intros q x. rewrite H. split.
  - intros [Hn F]. split; [exact Hn|]. intros p d Np Pq Hp.
    destruct (Z.eq_dec (am_quantity (a_amount d)) 0) as [Z|Z]; [|auto]. right.
    destruct (str_eqb (last_key a p) RootID) eqn:E.
    + apply str_eqb_eq in E. unfold last_key in E. destruct p; [contradiction|exact E].
    + exfalso. apply (F p); auto. apply find_iff; [exact O|]. apply node_subtree in Hp as (b & Sb & Eb).
      exists p, b. split; [reflexivity|]. split; [exact Sb|]. rewrite Eb. now apply Z.eqb_eq.
  - intros [Hn F]. split; [exact Hn|]. intros p I Sk [Np Pq]. apply find_iff in I as (r & b & E & Sb & M); [|exact O].
    cbn in E. subst r. apply Z.eqb_eq in M. destruct (F p (acc_data b) Np Pq (subtree_node _ _ _ Sb)) as [X|X]; [contradiction|].
    apply str_eqb_neq in Sk. apply Sk. unfold last_key. destruct p; [contradiction|exact X].
Qed.
