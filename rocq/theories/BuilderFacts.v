(** * Invariants of the transaction builder *)
From Verif Require Import Base BaseFacts Utf8 Unicode GoTime Strconv Journal Lexer Parser ParserFacts
  FlatSpec FlatFacts Spec JournalFacts.

(** A property of builders kept by its steps is kept by reading. *)
Section Invariant.
Variable U : unicode.
Variable I : builder -> Prop.
Variable P : entry -> Prop.

Definition keeps (F : fres) : Prop := let '(b, es, _) := F in I b /\ Forall P es.

Hypothesis I_close : forall b, I b -> keeps (close_open b).
Hypothesis I_begin : forall b ty, I b -> I (beginTransaction b ty).
Hypothesis I_build : forall b i c b', I b -> build b i c = POk b' -> I b'.

Lemma keeps_bind : forall F k, keeps F -> (forall b, I b -> keeps (k b)) -> keeps (fbind F k).
Proof.
  intros [[b es] r] k [Hb He] K. destruct r; try (split; assumption). cbn.
  specialize (K b Hb). destruct (k b) as [[b' es'] r']. destruct K. split; [assumption|].
  apply Forall_app; auto.
Qed.

Lemma keeps_built : forall b i c, I b -> keeps (built b i c).
Proof.
  intros b i c H. unfold built. destruct (build b i c) as [b'|e|] eqn:E; (split; [|constructor]); eauto.
Qed.

Lemma keeps_item : forall b i c, I b -> keeps (flat_item b i c).
Proof.
  intros b i c H.
  assert (forall ty f, keeps (fbind (close_open b) (fun b' => rewrap f (built (beginTransaction b' ty) i c)))).
  { intros ty f. apply keeps_bind; [auto|]. intros b' H'.
    pose proof (keeps_built (beginTransaction b' ty) i c (I_begin _ _ H')) as K.
    now destruct (built (beginTransaction b' ty) i c) as [[? ?] ?]. }
  destruct i; cbn [flat_item]; auto using keeps_built.
Qed.

Lemma keeps_items : forall items e b, I b -> keeps (flat_items b items e).
Proof.
  induction items as [|[i c] items IH]; intros e b H; cbn [flat_items].
  - split; [assumption|constructor].
  - apply keeps_bind; auto using keeps_item.
Qed.

Lemma keeps_flat : forall ls b, I b -> keeps (flat U ls b).
Proof.
  induction ls as [|[l|r] ls IH]; intros b H; cbn [flat]; try (split; [assumption|constructor]).
  apply keeps_bind; [|assumption]. unfold flat_line. destruct (lexLine U [] l). now apply keeps_items.
Qed.
End Invariant.

(** ** Amounts and the posting without one *)

Definition good (t : transaction) : Prop := elided_ok t /\ amounts_in_range (t_postings t).

Definition good_builder (b : builder) : Prop :=
  (forall t, b_txn b = Some t -> good t) /\
  (forall pt, b_ptxn b = Some pt -> good (pt_txn pt)) /\
  (forall p, b_cur b = Some p -> in_int64 (quantity p)).

Lemma in_int64_0 : in_int64 0.
Proof. unfold in_int64, two63. lia. Qed.

Lemma parseAmount_range : forall c q, parseAmount c = POk q -> in_int64 q.
Proof.
  intros c q. unfold parseAmount. destruct c as [|r c]; [discriminate|].
  destruct (if r =? 43 then _ else _) as [m c1].
  destruct (index_of c_dot c1 0) as [i|].
  - destruct (parse_int64 (encode (firstn i c1))); [|discriminate].
    destruct (parse_int64 (encode (skipn (S i) c1))); [|discriminate].
    intro H. injection H as <-. apply wrap64_range.
  - destruct (parse_int64 (encode c1)); [|discriminate]. intro H. injection H as <-. apply wrap64_range.
Qed.

Lemma good_new : good newTransaction.
Proof. split; [apply elided_ok_new|constructor]. Qed.

Lemma good_fields : forall t d s p h ns, good t ->
  good (Txn d s p (t_postings t) (t_elided t) h ns).
Proof. intros t d s p h ns [W A]. split; [exact W|exact A]. Qed.

Lemma good_add : forall t p t' e, good t -> in_int64 (quantity p) -> t_addPosting t p = (t', e) -> good t'.
Proof. intros t p t' e [W A] Q E. split; [eapply elided_ok_add|eapply amounts_add]; eauto. Qed.

Lemma good_begin : forall b ty, good_builder b -> good_builder (beginTransaction b ty).
Proof.
  intros b ty (H1 & H2 & H3). destruct ty; (split; [|split]); cbn; auto; intros ? E; injection E as <-;
    first [apply good_new | apply in_int64_0].
Qed.

Lemma good_target : forall b t, good_builder b -> target b = Some t -> good t.
Proof.
  intros b t (H1 & H2 & _). unfold target. destruct (b_type b); [apply H1|].
  destruct (b_ptxn b) eqn:E; [|discriminate]. cbn. intro H. injection H as <-. now apply H2.
Qed.

Lemma good_set_target : forall b t, good_builder b -> good t -> good_builder (set_target b t).
Proof.
  intros b t (H1 & H2 & H3) G. unfold set_target. destruct (b_type b); (split; [|split]); cbn; auto.
  - intros t0 E. now injection E as <-.
  - intros pt. destruct (b_ptxn b); [|discriminate]. cbn. intro E. injection E as <-. assumption.
Qed.

Lemma good_set_cur : forall b p, good_builder b -> in_int64 (quantity p) -> good_builder (set_cur b p).
Proof.
  intros b p (H1 & H2 & H3) G. (split; [|split]); cbn; auto. intros ? E. now injection E as <-.
Qed.

Lemma good_set_txn : forall b t, good_builder b -> good t -> good_builder (set_txn b t).
Proof.
  intros b t (H1 & H2 & H3) G. (split; [|split]); cbn; auto. intros ? E. now injection E as <-.
Qed.

Lemma good_buildNormal : forall b i c b', good_builder b -> buildNormalTransaction b i c = POk b' ->
  good_builder b'.
Proof.
  intros b i c b' G H. pose proof G as (G1 & G2 & G3). unfold buildNormalTransaction in H.
  destruct i; try (injection H as <-; assumption).
  - (* date *)
    destruct (parseDate c); try discriminate.
    destruct (target b) as [t|] eqn:T; [|discriminate]. injection H as <-.
    apply good_set_target; [assumption|]. apply good_fields. eapply good_target; eassumption.
  - (* state *)
    destruct (negb (prev_in b [dateItem])); [discriminate|]. destruct c; [discriminate|].
    destruct (target b) as [t|] eqn:T; [|discriminate]. injection H as <-.
    apply good_set_target; [assumption|]. apply good_fields. eapply good_target; eassumption.
  - (* payee *)
    destruct (negb (prev_in b [dateItem; stateItem])); [discriminate|].
    destruct (target b) as [t|] eqn:T; [|discriminate]. injection H as <-.
    apply good_set_target; [assumption|]. apply good_fields. eapply good_target; eassumption.
  - (* account *)
    destruct (negb _); [discriminate|]. destruct (b_cur b) as [p|] eqn:C; [|discriminate].
    destruct (target b) as [t|] eqn:T; [|discriminate].
    destruct (negb (is_nil (po_account p))).
    + injection H as <-. apply good_set_cur; [|apply in_int64_0].
      apply good_set_target; [assumption|].
      destruct (t_addPosting t p) as [t' e] eqn:A. cbn. eapply good_add; try eassumption.
      * eapply good_target; eassumption.
      * now apply G3.
    + injection H as <-. apply good_set_cur; [|apply (G3 p eq_refl)].
      apply good_set_target; [assumption|]. eapply good_target; eassumption.
  - (* commodity *)
    destruct (negb _); [discriminate|]. destruct (b_cur b) as [p|] eqn:C; [|discriminate].
    injection H as <-. apply good_set_cur; [assumption|]. specialize (G3 p eq_refl).
    unfold quantity in *. cbn. destruct (po_amount p); cbn; assumption.
  - (* amount *)
    destruct (negb _); [discriminate|]. destruct (b_cur b) as [p|] eqn:C; [|discriminate].
    destruct (parseAmount c) as [q|e|] eqn:E; try discriminate.
    injection H as <-. apply good_set_cur; [assumption|]. unfold quantity. cbn.
    eapply parseAmount_range; eassumption.
  - (* comment *)
    destruct (b_cur b) as [p|] eqn:C; [|discriminate].
    destruct (negb (is_nil (po_account p))).
    + injection H as <-. apply good_set_cur; [assumption|]. apply (G3 p eq_refl).
    + destruct (b_txn b) as [t|] eqn:T; [|discriminate]. injection H as <-.
      apply good_set_txn; [assumption|]. apply good_fields. auto.
  - (* header comment *)
    destruct (b_txn b) as [t|] eqn:T; [|discriminate]. injection H as <-.
    apply good_set_txn; [assumption|]. apply good_fields. auto.
Qed.

Lemma good_build : forall b i c b', good_builder b -> build b i c = POk b' -> good_builder b'.
Proof.
  intros b i c b' G. unfold build.
  destruct (match b_type b with normalTransaction => _ | periodicTransaction => _ end) as [b1|e|] eqn:E;
    try discriminate.
  intro H. injection H as <-.
  assert (good_builder b1) as G1.
  { destruct (b_type b); [eapply good_buildNormal; eassumption|].
    unfold buildPeriodicTransaction in E. destruct (b_ptxn b) as [pt|] eqn:PT; [|discriminate].
    destruct i; try (eapply good_buildNormal; eassumption).
    injection E as <-. destruct G as (H1 & H2 & H3). (split; [|split]); cbn; auto.
    intros ? E. injection E as <-. cbn. now apply H2. }
  exact G1.
Qed.

Lemma endNormal_good : forall b t t', good_builder b -> good t -> endNormalTransaction b t = (t', None) ->
  zero64 (total (t_postings t')) /\ amounts_in_range (t_postings t').
Proof.
  intros b t t' (H1 & H2 & H3) G. unfold endNormalTransaction.
  assert (exists t1 e1, (match b_cur b with Some p => t_addPosting t p | None => (t, None) end) = (t1, e1) /\
                        good t1) as (t1 & e1 & E1 & G1).
  { destruct (b_cur b) as [p|]; [|eauto].
    destruct (t_addPosting t p) as [t1 e1] eqn:A. exists t1, e1. split; [reflexivity|].
    eapply good_add; eauto. }
  rewrite E1. destruct e1; [discriminate|].
  set (t2 := if is_budget b && negb (hasBudgetSource t1) then _ else t1).
  assert (good t2) as G2.
  { unfold t2. destruct (is_budget b && negb (hasBudgetSource t1)); [|assumption].
    destruct (t_addPosting t1 _) as [t3 e3] eqn:A. eapply good_add; eauto. apply in_int64_0. }
  clearbody t2. intro C. destruct G2 as [W A].
  split; [eapply t_close_balanced|eapply t_close_amounts]; eauto.
Qed.

Definition entry_postings (e : entry) : list posting :=
  match e with TxnEntry t => t_postings t | PerEntry pt => t_postings (pt_txn pt) end.

Definition balanced_entry (e : entry) : Prop :=
  zero64 (total (entry_postings e)) /\ amounts_in_range (entry_postings e).

Lemma good_close : forall b, good_builder b -> keeps good_builder balanced_entry (close_open b).
Proof.
  intros b G. pose proof G as (H1 & H2 & H3). unfold close_open. destruct (b_type b).
  - destruct (b_txn b) as [t|] eqn:T; [|split; auto].
    destruct (endNormalTransaction b t) as [t' [e|]] eqn:E; [split; auto|].
    split; [split; [|split]; cbn; auto; discriminate|].
    constructor; [|constructor]. eapply endNormal_good; eauto.
  - destruct (b_ptxn b) as [t|] eqn:T; [|split; auto].
    destruct (endNormalTransaction b (pt_txn t)) as [t' [e|]] eqn:E; [split; auto|].
    split; [split; [|split]; cbn; auto; discriminate|].
    constructor; [|constructor]. eapply endNormal_good; eauto.
Qed.

Lemma good_newBuilder : good_builder newBuilder.
Proof. repeat split; discriminate. Qed.

Lemma flat_balanced : forall U ls, keeps good_builder balanced_entry (flat U ls newBuilder).
Proof.
  intros. apply keeps_flat; auto using good_close, good_begin, good_newBuilder. exact good_build.
Qed.

Lemma entries_balanced : forall U fs depth hint f,
  Forall balanced_entry (fst (entries U fs depth hint f)).
Proof.
  intros. unfold entries. pose proof (flat_balanced U (expand U fs depth hint f)) as K.
  destruct (flat U (expand U fs depth hint f) newBuilder) as [[b es] r]. now destruct K.
Qed.

Lemma addPosting_cases : forall t p,
  t_addPosting t p = (t, Some ETwoElided) \/
  exists el, t_addPosting t p =
    (Txn (t_date t) (t_state t) (t_payee t) (t_postings t ++ [p]) el (t_headernote t) (t_notes t), None).
Proof.
  intros t p. unfold t_addPosting. destruct (po_amount p); [right; eauto|].
  destruct (t_elided t); [left; reflexivity|right; eauto].
Qed.

Lemma endNormal_close : forall b t, elided_ok t ->
  endNormalTransaction b t = (t, Some ETwoElided) \/
  exists t2 source, elided_ok t2 /\ endNormalTransaction b t = t_close t2 /\
    t2 = Txn (t_date t) (t_state t) (t_payee t) (t_postings t2) (t_elided t2) (t_headernote t) (t_notes t) /\
    t_postings t2 = t_postings t ++ match b_cur b with Some p => [p] | None => [] end ++ source /\
    (source = [] \/ b_type b = periodicTransaction /\ source = [Posting [] BudgetRootID None]).
Proof.
  intros b t W. unfold endNormalTransaction.
  set (cur := match b_cur b with Some p => [p] | None => [] end).
  assert ((match b_cur b with Some p => t_addPosting t p | None => (t, None) end) = (t, Some ETwoElided) \/
    exists t1, (match b_cur b with Some p => t_addPosting t p | None => (t, None) end) = (t1, None) /\
      elided_ok t1 /\
      t1 = Txn (t_date t) (t_state t) (t_payee t) (t_postings t ++ cur) (t_elided t1) (t_headernote t) (t_notes t))
    as [->|(t1 & -> & W1 & E1)].
  { unfold cur. destruct (b_cur b) as [p|].
    - destruct (addPosting_cases t p) as [E|[el E]]; [auto|]. right. eexists. split; [exact E|].
      split; [eapply elided_ok_add; eassumption|reflexivity].
    - right. exists t. rewrite app_nil_r. split; [reflexivity|]. split; [assumption|]. now destruct t. }
  - now left.
  - right. destruct (is_budget b && negb (hasBudgetSource t1)) eqn:B.
    + apply andb_true_iff in B as [B _].
      assert (b_type b = periodicTransaction) as TY
        by (unfold is_budget in B; destruct (b_type b); [discriminate|reflexivity]).
      destruct (addPosting_cases t1 (Posting [] BudgetRootID None)) as [E|[el E]]; rewrite E; cbn [fst].
      * exists t1, []. split; [assumption|]. split; [reflexivity|]. rewrite app_nil_r.
        rewrite E1 at 2 3. split; [rewrite E1 at 1; reflexivity|]. split; [now rewrite E1|now left].
      * eexists. exists [Posting [] BudgetRootID None]. split; [eapply elided_ok_add; eassumption|].
        split; [reflexivity|]. cbn. rewrite E1. cbn. rewrite app_assoc. auto.
    + exists t1, []. split; [assumption|]. split; [reflexivity|]. rewrite app_nil_r.
      split; [rewrite E1 at 1; now rewrite E1|]. split; [now rewrite E1|now left].
Qed.
