(** * The texts in the transactions a journal delivers *)
From Verif Require Import Base BaseFacts Utf8 Utf8Facts Unicode GoTime Strconv Journal Lexer LexSpec LexerFacts LexText
  Parser ParserFacts FlatSpec FlatFacts Spec TextSpec DateFacts JournalText JournalFacts BuilderFacts LexedFacts.

Section Origin.
Variable U : unicode.

Definition note_ok (n : str) : Prop := spelt noted n /\ ~ In 10 n.
Definition posting_ok (p : posting) : Prop :=
  (spelt (account_text U) (po_account p) /\ ~ In 10 (po_account p)) /\ Forall note_ok (po_comments p) /\
  forall a, po_amount p = Some a -> spelt (commodity_text U) (am_commodity a) /\ ~ In 10 (am_commodity a).

Record heading_ok (t : transaction) : Prop := {
  ok_date : real_date (t_date t) /\ 0 <= d_year (t_date t) <= 9999;
  ok_payee : spelt (fun p => p = [] \/ payee_text (t_state t) p) (t_payee t) /\ ~ In 10 (t_payee t);
  ok_header : note_ok (t_headernote t);
  ok_notes : Forall note_ok (t_notes t) }.

Definition pair_ok (t : transaction) (p : posting) : Prop :=
  heading_ok t /\ Forall posting_ok (t_postings t) /\ (posting_ok p \/ (p = newPosting /\ t_postings t = [])).
Definition final_ok (t : transaction) : Prop :=
  heading_ok t /\ t_postings t <> [] /\ (Forall posting_ok (t_postings t) \/ t_postings t = [newPosting]).
Definition entry_ok (e : entry) : Prop := match e with TxnEntry t => final_ok t | PerEntry _ => True end.

Definition basic (b : builder) : Prop :=
  match b_type b with
  | normalTransaction => forall t, b_txn b = Some t -> exists p, b_cur b = Some p /\ pair_ok t p
  | periodicTransaction => b_txn b = None
  end.
Definition within (prev : option itemType) (b : builder) : Prop :=
  basic b /\ (b_type b = normalTransaction -> forall t p, b_txn b = Some t -> b_cur b = Some p ->
    match prev with
    | Some dateItem => t_state t = NoState /\ t_payee t = []
    | Some stateItem => t_state t <> NoState /\ t_payee t = []
    | Some accountItem | Some commodityItem => posting_ok p
    | _ => True
    end).

(** ** Pieces *)
Lemma note_ok_encode : forall c, clean c -> noted c -> note_ok (encode c).
Proof. intros c [V N] H. split; [exists c; auto|now apply encode_no_lf]. Qed.

Lemma note_ok_nil : note_ok [].
Proof. split; [|auto]. exists []. split; [constructor|]. split; [left; constructor|reflexivity]. Qed.

Lemma payee_nil : forall s, spelt (fun p => p = [] \/ payee_text s p) [] /\ ~ In 10 [].
Proof. intro s. split; [|auto]. exists []. split; [constructor|]. auto. Qed.

Lemma heading_new : heading_ok newTransaction.
Proof.
  split; cbn.
  - split; [|lia]. left. cbn. lia.
  - apply payee_nil.
  - apply note_ok_nil.
  - constructor.
Qed.

Lemma pair_new : pair_ok newTransaction newPosting.
Proof. split; [apply heading_new|]. split; [constructor|right; auto]. Qed.

Lemma parse_date_real : forall c d, parseDate c = POk d -> Forall (fun r => valid_rune r = true) c ->
  real_date d /\ 0 <= d_year d <= 9999.
Proof.
  intros c d H V. destruct (le_lt_dec 5 (length c)) as [L|L].
  - destruct (parseDate_spec c V L) as [S _]. apply S in H as (sep & _ & T & R). split; [exact R|].
    destruct T as [y m dd (Ly & Dy & Vy) _ _]. pose proof (numeral_value_bound y Dy) as B. rewrite Ly in B.
    rewrite Vy in B. change (10 ^ Z.of_nat 4) with 10000 in B. lia.
  - exfalso. unfold parseDate in H. destruct c as [|? [|? [|? [|? [|? ?]]]]]; cbn in L; try lia; discriminate.
Qed.

Lemma add_shape : forall t p, fst (t_addPosting t p) = t \/
  exists el, fst (t_addPosting t p) = Txn (t_date t) (t_state t) (t_payee t) (t_postings t ++ [p]) el (t_headernote t) (t_notes t).
Proof.
  intros t p. destruct (addPosting_cases t p) as [->|[el ->]]; [now left|right]. exists el. reflexivity.
Qed.

Lemma close_commodity : forall ps s c, Forall posting_ok ps -> spelt (commodity_text U) c /\ ~ In 10 c ->
  spelt (commodity_text U) (snd (close_loop ps s c)) /\ ~ In 10 (snd (close_loop ps s c)).
Proof.
  induction ps as [|p ps IH]; intros s c F H; [exact H|]. inversion_clear F as [|? ? P F']. cbn [close_loop].
  destruct (po_amount p) as [a|] eqn:E; [|auto]. apply IH; [exact F'|]. destruct P as (_ & _ & P). specialize (P a E).
  destruct (am_commodity a); [exact H|exact P].
Qed.

Lemma set_amount_ok : forall ps i a, Forall posting_ok ps -> spelt (commodity_text U) (am_commodity a) /\ ~ In 10 (am_commodity a) ->
  Forall posting_ok (set_amount_at i a ps).
Proof.
  induction ps as [|p ps IH]; intros i a F H; [destruct i; constructor|]. inversion_clear F as [|? ? P F'].
  destruct i; cbn [set_amount_at]; constructor; auto. destruct P as (P1 & P2 & _). split; [exact P1|]. split; [exact P2|].
  cbn. intros a0 E. injection E as <-. exact H.
Qed.

Lemma end_ok : forall b t p t', b_type b = normalTransaction -> b_cur b = Some p -> pair_ok t p ->
  endNormalTransaction b t = (t', None) -> final_ok t'.
Proof.
  intros b t p t' Ty C (H & F & P) E. unfold endNormalTransaction in E. rewrite C in E.
  destruct (addPosting_cases t p) as [X|[el X]]; rewrite X in E; [discriminate|].
  unfold is_budget in E. rewrite Ty in E. cbn [andb] in E. set (t1 := Txn _ _ _ _ el _ _) in E.
  assert (H1 : heading_ok t1) by (destruct H; split; assumption).
  unfold t_close in E. change (t_postings t1) with (t_postings t ++ [p]) in E.
  destruct P as [P|[-> Z]].
  - assert (F1 : Forall posting_ok (t_postings t ++ [p])) by (apply Forall_app; split; [exact F|now constructor]).
    pose proof (close_commodity _ 0 [] F1) as CC.
    destruct (close_loop (t_postings t ++ [p]) 0 []) as [s c]. destruct (negb (s =? 0)).
    + destruct (t_elided t1) as [i|]; [|discriminate]. injection E as <-. split; [destruct H1; split; assumption|].
      split; [cbn [t_postings]; intro Z; destruct (t_postings t), i; discriminate|]. left. cbn [t_postings].
      apply set_amount_ok; [exact F1|]. apply CC. split; [|auto]. exists []. split; [constructor|]. split; [|reflexivity].
      exists []. split; [constructor|]. split; [reflexivity|]. now left.
    + injection E as <-. split; [exact H1|]. split; [unfold t1; cbn; intro Z; now destruct (t_postings t)|]. left. exact F1.
  - rewrite Z in E. cbn in E. injection E as <-. split; [exact H1|]. unfold t1. cbn. rewrite Z. split; [discriminate|now right].
Qed.

(** ** Steps *)
Definition keeps_within (prev : option itemType) (F : fres) : Prop :=
  let '(b, es, r) := F in basic b /\ (r = SOk -> within prev b) /\ Forall entry_ok es.

Lemma close_ok : forall b, basic b ->
  keeps_within None (close_open b) /\ (forall b' es, close_open b = (b', es, SOk) -> b_txn b' = None \/ False).
Proof.
  intros b B. unfold basic in B. unfold close_open. destruct (b_type b) eqn:Ty.
  - destruct (b_txn b) as [t|] eqn:T.
    + destruct (B t eq_refl) as (p & C & P). destruct (endNormalTransaction b t) as [t' [e|]] eqn:E.
      * split; [|intros b' es X; discriminate]. split; [|split; [discriminate|constructor]]. unfold basic. rewrite Ty. intros t0 E0. rewrite T in E0. injection E0 as <-. eauto.
      * split; [|intros b' es X; injection X as <- <-; now left]. split; [|split].
        -- unfold basic. cbn. discriminate.
        -- intros _. split; [unfold basic; cbn; discriminate|]. cbn. discriminate.
        -- constructor; [|constructor]. cbn. eapply end_ok; eauto.
    + split; [|intros b' es X; injection X as <- <-; now left]. split; [|split; [|constructor]].
      * unfold basic. rewrite Ty, T. discriminate.
      * intros _. split; [unfold basic; rewrite Ty, T; discriminate|]. intros _ t p E. rewrite T in E. discriminate.
  - assert (W : basic b) by (unfold basic; now rewrite Ty).
    destruct (b_ptxn b) as [pt|] eqn:T.
    + destruct (endNormalTransaction b (pt_txn pt)) as [t' [e|]] eqn:E.
      * split; [|intros b' es X; discriminate]. split; [exact W|]. split; [discriminate|constructor].
      * split; [|intros b' es X; injection X as <- <-; left; exact B]. split; [exact B|]. split; [|constructor; [exact Logic.I|constructor]].
        intros _. split; [exact B|]. cbn. discriminate.
    + split; [|intros b' es X; injection X as <- <-; now left]. split; [exact W|]. split; [|constructor].
      intros _. split; [exact W|]. rewrite Ty. discriminate.
Qed.

Lemma begin_ok : forall b ty, b_txn b = None -> basic (beginTransaction b ty).
Proof.
  intros b [|] N; unfold basic; cbn; [|exact N]. intros t E. injection E as <-. exists newPosting. split; [reflexivity|apply pair_new].
Qed.

Lemma within_periodic : forall prev b, b_type b = periodicTransaction -> b_txn b = None -> within prev b.
Proof. intros prev b Ty N. split; [unfold basic; now rewrite Ty|]. rewrite Ty. discriminate. Qed.

Lemma build_periodic : forall b i c b', b_type b = periodicTransaction -> b_txn b = None -> build b i c = POk b' ->
  b_type b' = periodicTransaction /\ b_txn b' = None.
Proof.
  intros b i c b' Ty N H. unfold build in H. rewrite Ty in H. unfold buildPeriodicTransaction in H.
  destruct (b_ptxn b) as [pt|] eqn:PT; [|discriminate].
  assert (K : forall b1, buildNormalTransaction b i c = POk b1 -> b_type b1 = periodicTransaction /\ b_txn b1 = None).
  { intros b1 E. unfold buildNormalTransaction, target, set_target, set_cur, set_txn in E. rewrite Ty, N, PT in E. cbn [option_map] in E.
    destruct i;
    repeat match type of E with
    | context [match ?x with _ => _ end] => match x with
        | b_cur b => destruct (b_cur b); try discriminate
        | parseDate _ => destruct (parseDate c); try discriminate
        | parseAmount _ => destruct (parseAmount c); try discriminate
        | negb ?y => destruct (negb y); try discriminate
        | c => destruct c; try discriminate
        | po_amount ?p => destruct (po_amount p)
        end
    end; try discriminate; injection E as <-; cbn; auto. }
  destruct i;
    try (destruct (buildNormalTransaction b _ c) as [b1|e|]; try discriminate; injection H as <-; now apply (K b1 eq_refl)).
  injection H as <-. cbn. auto.
Qed.

Lemma step_ok : forall prev b i c b', within prev b -> item_ok U prev i c -> build b i c = POk b' ->
  i <> dateItem -> i <> periodItem -> within (Some i) b'.
Proof.
  intros prev b i c b' W Q H ND NP. destruct (b_type b) eqn:Ty.
  2:{ destruct (build_periodic b i c b' Ty) as [T N]; [destruct W as [B _]; unfold basic in B; now rewrite Ty in B|exact H|].
      now apply within_periodic. }
  unfold build in H. rewrite Ty in H. destruct (buildNormalTransaction b i c) as [b1|e|] eqn:E; try discriminate. injection H as <-.
  destruct W as [B L]. unfold basic in B. rewrite Ty in B. specialize (L Ty).
  assert (SP : within (Some i) b1 -> within (Some i) (set_prev b1 i)).
  { intros [X Y]. split; [exact X|exact Y]. }
  apply SP. clear SP. unfold buildNormalTransaction, target in E. rewrite Ty in E.
  assert (ST : forall t, set_target b t = set_txn b t) by (intro t; unfold set_target, set_txn; now rewrite Ty).
  assert (IN : forall t p, pair_ok t p -> match Some i with
    | Some dateItem => t_state t = NoState /\ t_payee t = []
    | Some stateItem => t_state t <> NoState /\ t_payee t = []
    | Some accountItem | Some commodityItem => posting_ok p | _ => True end ->
    within (Some i) (Builder normalTransaction (Some t) (b_ptxn b) (Some p) (b_prev b))).
  { intros t p P M. split; [unfold basic; cbn; intros t0 X; injection X as <-; eauto|]. cbn. intros _ t0 p0 X Y. injection X as <-. injection Y as <-. exact M. }
  destruct i; try contradiction; try (injection E as <-; cbn in Q; subst prev; split; [unfold basic; rewrite Ty; exact B|auto]).
  - (* state *)
    destruct (negb (prev_in b [dateItem])); [discriminate|]. destruct Q as [-> Q].
    destruct c as [|x c]; [discriminate|]. destruct (b_txn b) as [t|] eqn:T; [|discriminate]. injection E as <-.
    destruct (B t eq_refl) as (p & C & (H & F & P)). rewrite ST. destruct (L t p eq_refl C) as [S0 P0].
    unfold set_txn. rewrite Ty, C. apply IN.
    + split; [|split; [exact F|exact P]]. destruct H as [H1 H2 H3 H4]. split; cbn; auto. rewrite P0. apply payee_nil.
    + cbn. split; [|exact P0]. destruct Q as [Q|Q]; injection Q as -> ->; discriminate.
  - (* payee *)
    destruct (negb (prev_in b [dateItem; stateItem])); [discriminate|]. destruct Q as ([V N] & Ph & Q).
    destruct (b_txn b) as [t|] eqn:T; [|discriminate]. injection E as <-.
    destruct (B t eq_refl) as (p & C & (H & F & P)). rewrite ST. specialize (L t p eq_refl C).
    unfold set_txn. rewrite Ty, C. apply IN; [|exact Logic.I].
    split; [|split; [exact F|exact P]]. destruct H as [H1 H2 H3 H4]. split; cbn; auto. split; [|now apply encode_no_lf].
    exists c. split; [exact V|]. split; [|reflexivity]. destruct Ph as [->|Ph]; [now left|]. right. split; [exact Ph|]. unfold mark_ok.
    destruct Q as [->|(-> & N1 & N2)].
    + destruct L as [L _]. destruct (t_state t); [contradiction|left; reflexivity|right; left; reflexivity].
    + destruct L as [-> _]. right. right. auto.
  - (* account *)
    destruct (negb _); [discriminate|]. destruct Q as (-> & [V N] & A).
    destruct (b_cur b) as [p|] eqn:C; [|discriminate]. destruct (b_txn b) as [t|] eqn:T; [|discriminate].
    destruct (B t eq_refl) as (p' & C' & (H & F & P)). injection C' as <-.
    assert (NP' : posting_ok (Posting [] (encode c) None)).
    { split; [split; [exists c; auto|now apply encode_no_lf]|]. split; [constructor|]. discriminate. }
    destruct (negb (is_nil (po_account p))) eqn:Na.
    + injection E as <-. rewrite ST. unfold set_cur, set_txn. cbn [b_type b_txn b_ptxn b_prev]. rewrite Ty.
      apply IN; [|exact NP']. destruct P as [P|[-> _]]; [|discriminate].
      assert (F' : heading_ok (fst (t_addPosting t p)) /\ Forall posting_ok (t_postings (fst (t_addPosting t p)))).
      { destruct (add_shape t p) as [->|[el ->]]; [auto|]. split; [destruct H; split; assumption|]. cbn. apply Forall_app. auto. }
      destruct F' as [H' F']. split; [exact H'|]. split; [exact F'|]. left. exact NP'.
    + injection E as <-. rewrite ST. unfold set_cur, set_txn. cbn [b_type b_txn b_ptxn b_prev]. rewrite Ty.
      destruct P as [((A1 & _) & _)|[-> Z]].
      { exfalso. destruct A1 as (rs & Vr & (NE & _) & Er). destruct (po_account p) as [|x y]; [|discriminate].
        destruct rs as [|r rs]; [contradiction|]. cbn in Er. symmetry in Er. apply app_eq_nil in Er as [Er _]. exact (encode_rune_nonempty r Er). }
      apply IN; [|exact NP']. split; [exact H|]. split; [exact F|]. left. exact NP'.
  - (* commodity *)
    destruct (negb _); [discriminate|]. destruct Q as (-> & [V N] & A). destruct (b_cur b) as [p|] eqn:C; [|discriminate].
    injection E as <-.
    assert (K : forall t, b_txn b = Some t ->
      posting_ok (Posting (po_comments p) (po_account p) (Some match po_amount p with
        None => Amount (encode c) 0 | Some a => Amount (encode c) (am_quantity a) end))).
    { intros t T. specialize (L t p T eq_refl). cbn in L. destruct L as (L1 & L2 & L3). split; [exact L1|]. split; [exact L2|]. cbn.
      intros a X. injection X as <-. assert (K : spelt (commodity_text U) (encode c) /\ ~ In 10 (encode c)).
      { split; [exists c; auto|now apply encode_no_lf]. } now destruct (po_amount p). }
    split.
    + unfold basic. cbn. rewrite Ty. intros t T. destruct (B t T) as (p' & C' & (H & F & P)).
      eexists. split; [reflexivity|]. split; [exact H|]. split; [exact F|]. left. eapply K, T.
    + cbn. intros _ t p0 T X. injection X as <-. eapply K, T.
  - (* amount *)
    destruct (negb _); [discriminate|]. cbn in Q. subst prev. destruct (b_cur b) as [p|] eqn:C; [|discriminate].
    destruct (parseAmount c) as [q|e|]; try discriminate. injection E as <-. split; [|cbn; auto].
    unfold basic. cbn. rewrite Ty. intros t T. destruct (B t T) as (p' & C' & (H & F & P)).
    eexists. split; [reflexivity|]. split; [exact H|]. split; [exact F|]. left.
    specialize (L t p T eq_refl). cbn in L. destruct L as (L1 & L2 & L3). split; [exact L1|]. split; [exact L2|]. cbn.
    intros a X. injection X as <-. cbn. destruct (po_amount p) as [a|]; [exact (L3 a eq_refl)|].
    split; [|auto]. exists []. split; [constructor|]. split; [|reflexivity]. exists []. split; [constructor|]. split; [reflexivity|]. now left.
  - (* comment *)
    destruct Q as (-> & V & Nt). destruct (b_cur b) as [p|] eqn:C; [|discriminate].
    pose proof (note_ok_encode c V Nt) as NO. destruct (negb (is_nil (po_account p))) eqn:Na.
    + injection E as <-. split; [|cbn; auto]. unfold basic. cbn. rewrite Ty. intros t T. destruct (B t T) as (p' & C' & (H & F & P)).
      injection C' as <-. eexists. split; [reflexivity|]. split; [exact H|]. split; [exact F|].
      destruct P as [(P1 & P2 & P3)|[-> _]]; [|discriminate]. left. split; [exact P1|]. split; [|exact P3]. cbn. apply Forall_app. auto.
    + destruct (b_txn b) as [t|] eqn:T; [|discriminate]. injection E as <-. destruct (B t eq_refl) as (p' & C' & (H & F & P)). injection C' as <-.
      unfold set_txn. rewrite Ty, C. apply IN; [|exact Logic.I]. split; [|split; [exact F|exact P]]. destruct H as [H1 H2 H3 H4].
      split; cbn; auto. apply Forall_app. auto.
  - (* header note *)
    destruct Q as (-> & V & Nt). pose proof (note_ok_encode c V Nt) as NO.
    destruct (b_txn b) as [t|] eqn:T; [|discriminate]. injection E as <-. destruct (B t eq_refl) as (p & C & (H & F & P)).
    unfold set_txn. rewrite Ty, C. apply IN; [|exact Logic.I]. split; [|split; [exact F|exact P]]. destruct H as [H1 H2 H3 H4].
    split; cbn; auto.
Qed.

Lemma date_ok : forall b c b', b_txn b = None -> Forall (fun r => valid_rune r = true) c ->
  build (beginTransaction b normalTransaction) dateItem c = POk b' -> within (Some dateItem) b'.
Proof.
  intros b c b' N V H. unfold build in H. cbn [beginTransaction b_type] in H. unfold buildNormalTransaction in H.
  destruct (parseDate c) as [d|e|] eqn:E; try discriminate. cbn in H. injection H as <-.
  pose proof (parse_date_real c d E V) as R.
  split; [|cbn; intros _ t p X _; injection X as <-; auto]. unfold basic. cbn. intros t X. injection X as <-.
  exists newPosting. split; [reflexivity|]. destruct pair_new as (H & F & P). split; [|split; [exact F|right; auto]].
  destruct H as [H1 H2 H3 H4]. split; cbn; auto.
Qed.

(** ** Reading *)
Lemma items_keep : forall items prev b e, within prev b -> items_ok U prev items -> keeps_within None (flat_items b items e).
Proof.
  induction items as [|[i c] items IH]; intros prev b e W Q; cbn [flat_items].
  - destruct W as [B _]. split; [exact B|]. split; [|constructor]. intros _. split; [exact B|]. auto.
  - destruct Q as [Qi Q].
    assert (K : forall b1 es1 r1, keeps_within (Some i) (b1, es1, r1) ->
      keeps_within None (fbind (b1, es1, r1) (fun b' => flat_items b' items e))).
    { intros b1 es1 r1 (B1 & W1 & E1). cbn [fbind]. destruct r1; try (split; [exact B1|split; [discriminate|exact E1]]).
      specialize (IH (Some i) b1 e (W1 eq_refl) Q). destruct (flat_items b1 items e) as [[b2 es2] r2]. destruct IH as (B2 & W2 & E2).
      split; [exact B2|]. split; [exact W2|]. apply Forall_app. auto. }
    assert (B : basic b) by apply W.
    assert (Plain : i <> dateItem -> i <> periodItem -> keeps_within (Some i) (built b i c)).
    { intros N1 N2. unfold built. destruct (build b i c) as [b'|x|] eqn:E.
      - pose proof (step_ok prev b i c b' W Qi E N1 N2) as S. split; [apply S|]. split; [auto|constructor].
      - split; [exact B|]. split; [discriminate|constructor].
      - split; [exact B|]. split; [discriminate|constructor]. }
    assert (Open : forall ty f, (ty = normalTransaction /\ i = dateItem) \/ (ty = periodicTransaction /\ i = periodItem) ->
      keeps_within (Some i) (fbind (close_open b) (fun b' => rewrap f (built (beginTransaction b' ty) i c)))).
    { intros ty f Ty. destruct (close_ok b B) as [Kc Nc]. destruct (close_open b) as [[b1 es1] r1]. destruct Kc as (B1 & W1 & E1).
      cbn [fbind]. destruct r1; try (split; [exact B1|split; [discriminate|exact E1]]).
      destruct (Nc _ _ eq_refl) as [N1|[]]. unfold built. destruct (build (beginTransaction b1 ty) i c) as [b2|x|] eqn:E; cbn [rewrap wrap_err].
      - assert (S : within (Some i) b2).
        { destruct Ty as [[-> ->]|[-> ->]].
          - eapply date_ok; [exact N1| |exact E]. apply Qi.
          - destruct (build_periodic (beginTransaction b1 periodicTransaction) periodItem c b2 eq_refl N1 E) as [T2 N2].
            now apply within_periodic. }
        split; [apply S|]. split; [auto|]. apply Forall_app. split; [exact E1|constructor].
      - split; [now apply begin_ok|]. split; [discriminate|]. apply Forall_app. split; [exact E1|constructor].
      - split; [now apply begin_ok|]. split; [discriminate|]. apply Forall_app. split; [exact E1|constructor]. }
    assert (Weak : i = emptyLineItem \/ i = eofItem -> keeps_within (Some i) (close_open b)).
    { intro Hi. destruct (close_ok b B) as [Kc _]. destruct (close_open b) as [[b1 es1] r1]. destruct Kc as (B1 & W1 & E1).
      split; [exact B1|]. split; [|exact E1]. intros _. split; [exact B1|]. destruct Hi as [-> | ->]; auto. }
    match goal with |- keeps_within None (fbind ?F _) => assert (KF : keeps_within (Some i) F) end.
    { destruct i; cbn [flat_item]; auto; try (apply Plain; discriminate). }
    destruct (flat_item b i c) as [[b1 es1] r1]. now apply K.
Qed.

Lemma flat_keep : forall ls b, lines_no_lf ls -> basic b -> keeps_within None (flat U ls b).
Proof.
  induction ls as [|[l|r] ls IH]; intros b N B; cbn [flat].
  - split; [exact B|]. split; [|constructor]. intros _. split; [exact B|]. auto.
  - inversion_clear N as [|? ? N0 N1]. pose proof (line_items_ok U l N0) as Q. unfold flat_line.
    destruct (lexLine U [] l) as [items e]. cbn [fst] in Q.
    assert (W : within None b) by (split; [exact B|auto]). pose proof (items_keep items None b e W Q) as K. destruct (flat_items b items e) as [[b1 es1] r1].
    destruct K as (B1 & W1 & E1). cbn [fbind]. destruct r1; try (split; [exact B1|split; [discriminate|exact E1]]).
    specialize (IH b1 N1 B1). destruct (flat U ls b1) as [[b2 es2] r2]. destruct IH as (B2 & W2 & E2).
    split; [exact B2|]. split; [exact W2|]. apply Forall_app. auto.
  - split; [exact B|]. split; [|constructor]. intros _. split; [exact B|]. auto.
Qed.

Theorem entries_texts : forall fs depth hint f, Forall entry_ok (fst (entries U fs depth hint f)).
Proof.
  intros fs depth hint f. unfold entries.
  pose proof (flat_keep (expand U fs depth hint f) newBuilder (expand_no_lf U fs depth hint f)) as K.
  destruct (flat U (expand U fs depth hint f) newBuilder) as [[b es] r]. apply K. unfold basic. cbn. discriminate.
Qed.
End Origin.
