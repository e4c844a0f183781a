(** * Facts about transactions: journal/transaction.go *)
From Verif Require Import Base BaseFacts GoTime Strconv Journal Spec.

Lemma sumZ_cons : forall x l, sumZ (x :: l) = x + sumZ l.
Proof. reflexivity. Qed.
Lemma sumZ_app : forall a b, sumZ (a ++ b) = sumZ a + sumZ b.
Proof.
  induction a as [|x a IH]; intro b; [reflexivity|]. cbn [app]. rewrite !sumZ_cons, IH. lia.
Qed.

Lemma total_app : forall a b, total (a ++ b) = total a + total b.
Proof. intros. unfold total. now rewrite map_app, sumZ_app. Qed.
Lemma total_cons : forall p ps, total (p :: ps) = quantity p + total ps.
Proof. reflexivity. Qed.

Lemma sumZ_perm : forall a b, Permutation a b -> sumZ a = sumZ b.
Proof. induction 1; rewrite ?sumZ_cons; lia. Qed.

Lemma last_cons_default : forall A (l : list A) x d, last (x :: l) d = last l x.
Proof.
  induction l as [|y l IH]; intros x d; [reflexivity|].
  change (last (x :: y :: l) d) with (last (y :: l) d). now rewrite !IH.
Qed.

Lemma close_loop_spec : forall ps sum c, sum = wrap64 sum ->
  close_loop ps sum c = (wrap64 (sum + total ps), last (named_commodities ps) c).
Proof.
  induction ps as [|p ps IH]; intros sum c H; cbn [close_loop].
  - unfold total, named_commodities. cbn. rewrite Z.add_0_r, <- H. reflexivity.
  - rewrite total_cons. unfold quantity, named_commodities. cbn [map commodity_of].
    unfold commodity_of at 1. destruct (po_amount p) as [a|].
    + rewrite IH by now rewrite wrap64_wrap64. rewrite wrap64_add_l. f_equal.
      * f_equal. lia.
      * destruct (am_commodity a) as [|x xs]; cbn [filter]; [reflexivity|].
        now rewrite last_cons_default.
    + rewrite IH by assumption. cbn [filter]. reflexivity.
Qed.

Lemma set_amount_at_split : forall i ps a p, nth_error ps i = Some p ->
  set_amount_at i a ps = firstn i ps ++ [with_amount p a] ++ skipn (S i) ps.
Proof.
  induction i as [|i IH]; intros [|q ps] a p H; cbn in H; try discriminate.
  - injection H as ->. reflexivity.
  - cbn [set_amount_at firstn skipn app]. f_equal. rewrite IH with (p := p) by assumption. reflexivity.
Qed.

Lemma nth_error_split3 : forall A i (ps : list A) p, nth_error ps i = Some p ->
  ps = firstn i ps ++ [p] ++ skipn (S i) ps.
Proof.
  induction i as [|i IH]; intros [|q ps] p H; cbn in H; try discriminate.
  - injection H as ->. reflexivity.
  - cbn [firstn skipn app]. f_equal. now apply IH.
Qed.

Lemma total_set_amount : forall i ps a p, nth_error ps i = Some p ->
  total (set_amount_at i a ps) = total ps - quantity p + am_quantity a.
Proof.
  induction i as [|i IH]; intros [|q ps] a p H; cbn in H; try discriminate.
  - injection H as ->. cbn [set_amount_at]. rewrite !total_cons. unfold quantity at 1. cbn. lia.
  - cbn [set_amount_at]. rewrite !total_cons, (IH _ _ _ H). lia.
Qed.

Lemma nth_set_amount : forall i j a ps,
  nth_error (set_amount_at i a ps) j =
  if (i =? j)%nat then option_map (fun p => with_amount p a) (nth_error ps j) else nth_error ps j.
Proof.
  induction i as [|i IH]; intros [|j] a [|p ps]; cbn; try reflexivity.
  - now destruct (i =? j)%nat.
  - apply IH.
Qed.

Lemma length_set_amount : forall i a ps, length (set_amount_at i a ps) = length ps.
Proof. induction i as [|i IH]; intros a [|p ps]; cbn; auto. Qed.

Definition sum64 (ps : list posting) : Z := wrap64 (total ps).

(** Transaction.Close, exactly. *)
Lemma t_close_spec : forall t, elided_ok t ->
  (sum64 (t_postings t) = 0 -> t_close t = (t, None)) /\
  (sum64 (t_postings t) <> 0 -> Forall (fun p => po_amount p <> None) (t_postings t) ->
     t_close t = (t, Some EUnbalanced)) /\
  (sum64 (t_postings t) <> 0 -> forall before p after,
     t_postings t = before ++ p :: after -> po_amount p = None ->
     t_close t = (with_postings t (before ++ with_amount p
                    (Amount (last_commodity (t_postings t)) (wrap64 (- sum64 (t_postings t)))) :: after), None)).
Proof.
  intros t W. unfold t_close, sum64, last_commodity. rewrite close_loop_spec by reflexivity.
  rewrite Z.add_0_l.
  split; [intros ->; reflexivity|].
  destruct (Z.eqb_spec (wrap64 (total (t_postings t))) 0) as [E|E];
    [split; intro; congruence|]. cbn [negb]. split; intros _.
  - intro F. destruct (t_elided t) as [i|] eqn:EL; [|reflexivity].
    apply W in EL as (p & N & A). apply nth_error_In in N. rewrite Forall_forall in F.
    now apply F in N.
  - intros before p after S A.
    assert (nth_error (t_postings t) (length before) = Some p) as N.
    { rewrite S, nth_error_app2 by lia. now rewrite Nat.sub_diag. }
    assert (t_elided t = Some (length before)) as EL by (apply W; eauto).
    rewrite EL. unfold with_postings. rewrite EL.
    rewrite (set_amount_at_split _ _ _ _ N).
    assert (firstn (length before) (t_postings t) = before) as ->.
    { rewrite S, firstn_app, Nat.sub_diag, firstn_all, firstn_O. apply app_nil_r. }
    assert (skipn (Datatypes.S (length before)) (t_postings t) = after) as ->.
    { rewrite S. change (p :: after) with ([p] ++ after). rewrite app_assoc, skipn_app.
      replace (Datatypes.S (length before)) with (length (before ++ [p])) by (rewrite app_length; cbn; lia).
      rewrite skipn_all, Nat.sub_diag. reflexivity. }
    reflexivity.
Qed.

(** After a successful Close the quantities sum to zero. *)
Lemma t_close_balanced : forall t t', elided_ok t -> t_close t = (t', None) ->
  zero64 (total (t_postings t')).
Proof.
  intros t t' W. unfold t_close. rewrite close_loop_spec by reflexivity. rewrite Z.add_0_l.
  destruct (Z.eqb_spec (wrap64 (total (t_postings t))) 0) as [E|E]; cbn [negb].
  - intro H. injection H as <-. now apply wrap64_zero_iff.
  - destruct (t_elided t) as [i|] eqn:EL; [|discriminate]. intro H. injection H as <-.
    cbn [t_postings]. apply W in EL as (p & N & A).
    rewrite (total_set_amount _ _ _ _ N). unfold quantity. rewrite A. cbn [am_quantity].
    apply wrap64_zero_iff. rewrite Z.sub_0_r, wrap64_add_r.
    replace (total (t_postings t) + - wrap64 (total (t_postings t)))
      with (total (t_postings t) - wrap64 (total (t_postings t))) by lia.
    rewrite wrap64_sub_r, Z.sub_diag. reflexivity.
Qed.

(** Close changes nothing but the amount of the posting without one. *)
Lemma t_close_same : forall t t' e, t_close t = (t', e) ->
  t_date t' = t_date t /\ t_state t' = t_state t /\ t_payee t' = t_payee t /\
  t_headernote t' = t_headernote t /\ t_notes t' = t_notes t /\ t_elided t' = t_elided t /\
  map po_account (t_postings t') = map po_account (t_postings t) /\
  map po_comments (t_postings t') = map po_comments (t_postings t).
Proof.
  intros t t' e. unfold t_close. destruct (close_loop (t_postings t) 0 []) as [sum c].
  destruct (negb (sum =? 0)); [|intro H; injection H as <- <-; repeat split].
  assert (forall i a ps, map po_account (set_amount_at i a ps) = map po_account ps /\
                         map po_comments (set_amount_at i a ps) = map po_comments ps) as K.
  { induction i as [|i IH]; intros a [|p ps]; cbn; auto. destruct (IH a ps). split; congruence. }
  destruct (t_elided t) as [i|] eqn:EL; intro H; injection H as <- <-; [|repeat split; assumption].
  cbn. repeat (split; [reflexivity|]). apply K.
Qed.

Lemma t_close_amounts : forall t t' e, t_close t = (t', e) -> amounts_in_range (t_postings t) ->
  amounts_in_range (t_postings t').
Proof.
  intros t t' e. unfold t_close. destruct (close_loop (t_postings t) 0 []) as [sum c].
  destruct (negb (sum =? 0)); [|intro H; injection H as <- <-; auto].
  destruct (t_elided t) as [i|] eqn:EL; intro H; injection H as <- <-; [|auto]. cbn.
  generalize (t_postings t). intros ps. clear. unfold amounts_in_range. revert ps.
  induction i as [|i IH]; intros [|p ps] F; cbn; auto; inversion F; subst; constructor; auto.
  apply wrap64_range.
Qed.

Lemma elided_ok_new : forall d s p h ns, elided_ok (Txn d s p [] None h ns).
Proof.
  intros. intro i. cbn. split; [|discriminate]. intros (q & H & _). now destruct i.
Qed.

Lemma elided_ok_add : forall t p t' e, elided_ok t -> t_addPosting t p = (t', e) -> elided_ok t'.
Proof.
  intros t p t' e W. unfold elided_ok in W. unfold t_addPosting.
  assert (forall el, t_elided t = None /\ po_amount p = None /\ el = Some (length (t_postings t)) \/
                     po_amount p <> None /\ el = t_elided t ->
    elided_ok (Txn (t_date t) (t_state t) (t_payee t) (t_postings t ++ [p]) el (t_headernote t) (t_notes t))).
  { intros el H i. cbn [t_postings t_elided].
    destruct (Nat.lt_ge_cases i (length (t_postings t))) as [L|L].
    - rewrite nth_error_app1 by assumption. rewrite W.
      destruct H as [(E & _ & ->)|(_ & ->)]; [|reflexivity]. rewrite E.
      split; [discriminate|]. intro H. injection H as <-. lia.
    - rewrite nth_error_app2 by assumption.
      destruct H as [(E & A & ->)|(A & ->)].
      + split.
        * intros (q & N & _). destruct (i - length (t_postings t))%nat eqn:D; [f_equal; lia|].
          cbn in N. now destruct n.
        * intro H. injection H as <-. rewrite Nat.sub_diag. cbn. eauto.
      + split.
        * intros (q & N & B). destruct (i - length (t_postings t))%nat eqn:D;
            [cbn in N; injection N as ->; congruence|]. cbn in N. now destruct n.
        * intro H. apply W in H as (q & N & _). apply nth_error_None in L. congruence. }
  destruct (po_amount p) eqn:A.
  - intro E. injection E as <- <-. apply H. right. split; [discriminate|reflexivity].
  - destruct (t_elided t) eqn:EL; intro E; injection E as <- <-; [intro; now rewrite EL|]. apply H. auto.
Qed.

Lemma amounts_add : forall t p t' e, amounts_in_range (t_postings t) -> in_int64 (quantity p) ->
  t_addPosting t p = (t', e) -> amounts_in_range (t_postings t').
Proof.
  intros t p t' e A Q. unfold t_addPosting.
  assert (amounts_in_range (t_postings t ++ [p])) by (apply Forall_app; split; [assumption|repeat constructor; apply Q]).
  destruct (po_amount p); [intro E; injection E as <- <-; assumption|].
  destruct (t_elided t); intro E; injection E as <- <-; assumption.
Qed.
