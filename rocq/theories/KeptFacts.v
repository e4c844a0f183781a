(** * Every posting line with an amount is delivered *)
From Verif Require Import Base BaseFacts Utf8 Utf8Facts Unicode GoTime Strconv Journal Lexer LexSpec
  LexerFacts Parser FlatSpec FlatFacts Spec JournalFacts IncludeFacts PanicSpec PanicFacts ReadFacts.

Lemma subseq_refl : forall {A} (l : list A), subseq l l.
Proof. induction l; constructor; assumption. Qed.
Lemma subseq_app : forall {A} (a a' b b' : list A), subseq a a' -> subseq b b' -> subseq (a ++ b) (a' ++ b').
Proof. intros A a a' b b' H K. induction H; cbn; [assumption|constructor; assumption..]. Qed.
Lemma subseq_trans : forall {A} (b c : list A), subseq b c -> forall a, subseq a b -> subseq a c.
Proof.
  intros A b c H. induction H as [|x l l' H IH|x l l' H IH]; intros a K.
  - exact K.
  - inversion K; subst; constructor; auto.
  - constructor. auto.
Qed.
Lemma subseq_in : forall {A} (a b : list A) x, subseq a b -> In x a -> In x b.
Proof. intros A a b x H. induction H; cbn; intuition. Qed.
Lemma subseq_nil_l : forall {A} (l : list A), subseq [] l.
Proof. induction l; constructor; assumption. Qed.

Section Kept.
Variable U : unicode.

Definition named_given (p : posting) : list (str * amount) :=
  match po_account p with [] => [] | _ => given p end.
Definition held (b : builder) : list (str * amount) :=
  match target b with Some t => flat_map given (t_postings t) | None => [] end ++
  match b_cur b with Some p => named_given p | None => [] end.

Lemma set_amount_given : forall ps i a, (forall p, nth_error ps i = Some p -> po_amount p = None) ->
  subseq (flat_map given ps) (flat_map given (set_amount_at i a ps)).
Proof.
  induction ps as [|p ps IH]; intros [|i] a H; cbn [set_amount_at flat_map]; [constructor..| |].
  - specialize (H p eq_refl). unfold given at 1. rewrite H. cbn. constructor. apply subseq_refl.
  - apply subseq_app; [apply subseq_refl|]. apply IH. exact H.
Qed.

Definition elided_fits (t : transaction) : Prop :=
  forall i p, t_elided t = Some i -> nth_error (t_postings t) i = Some p -> po_amount p = None.

Lemma add_given : forall t p, elided_fits t -> (match t_elided t with Some i => (i < length (t_postings t))%nat | None => True end) ->
  let t' := fst (t_addPosting t p) in
  elided_fits t' /\ (match t_elided t' with Some i => (i < length (t_postings t'))%nat | None => True end) /\
  flat_map given (t_postings t') = flat_map given (t_postings t) ++ given p.
Proof.
  intros t p E L. unfold t_addPosting. destruct (po_amount p) as [a|] eqn:PA; [|destruct (t_elided t) as [i|] eqn:TE]; cbn [fst].
  - repeat split; cbn [t_postings t_elided].
    + intros i q H N. cbn in H, N. rewrite H in L. rewrite nth_error_app1 in N by assumption. now apply (E i).
    + destruct (t_elided t); [rewrite app_length; cbn; lia|exact I].
    + rewrite flat_map_app. cbn. now rewrite app_nil_r.
  - repeat split; try assumption. { rewrite TE. exact L. } unfold given. rewrite PA. now rewrite app_nil_r.
  - repeat split; cbn [t_postings t_elided].
    + intros i q H N. cbn in H, N. injection H as <-. rewrite nth_error_app2, Nat.sub_diag in N by lia. cbn in N. congruence.
    + rewrite app_length. cbn. lia.
    + rewrite flat_map_app. cbn. now rewrite app_nil_r.
Qed.

Definition sound (b : builder) : Prop :=
  match target b with
  | Some t => elided_fits t /\ match t_elided t with Some i => (i < length (t_postings t))%nat | None => True end
  | None => True
  end.

Lemma end_given : forall b t t', target b = Some t -> sound b -> endNormalTransaction b t = (t', None) ->
  subseq (held b) (flat_map given (t_postings t')).
Proof.
  intros b t t' T S E. unfold endNormalTransaction in E. unfold sound in S. rewrite T in S. destruct S as [S1 S2].
  destruct (match b_cur b with Some p => t_addPosting t p | None => (t, None) end) as [t1 e1] eqn:A.
  assert (elided_fits t1 /\ (match t_elided t1 with Some i => (i < length (t_postings t1))%nat | None => True end) /\
          subseq (held b) (flat_map given (t_postings t1))) as (F1 & L1 & G1).
  { unfold held. rewrite T. destruct (b_cur b) as [p|].
    - destruct (add_given t p S1 S2) as (X & Y & Z). rewrite A in X, Y, Z. cbn [fst] in X, Y, Z. repeat split; try assumption.
      rewrite Z. apply subseq_app; [apply subseq_refl|]. unfold named_given. destruct (po_account p); [apply subseq_nil_l|apply subseq_refl].
    - injection A as <- <-. repeat split; try assumption. rewrite app_nil_r. apply subseq_refl. }
  destruct e1; [discriminate|].
  set (t2 := if _ && _ then _ else _) in E.
  assert (elided_fits t2 /\ subseq (held b) (flat_map given (t_postings t2))) as [F2 G2].
  { unfold t2. destruct (is_budget b && negb (hasBudgetSource t1)); [|auto].
    destruct (add_given t1 (Posting [] BudgetRootID None) F1 L1) as (X & Y & Z). split; [exact X|]. rewrite Z. cbn. now rewrite app_nil_r. }
  unfold t_close in E. destruct (close_loop (t_postings t2) 0 []) as [sum c]. destruct (negb (sum =? 0)).
  - destruct (t_elided t2) as [i|] eqn:TE; [|discriminate]. injection E as <-. cbn [t_postings].
    eapply subseq_trans; [|exact G2]. apply set_amount_given. intros p N. now apply (F2 i).
  - now injection E as <-.
Qed.

(** Everything about one line. *)
Lemma close_held : forall b b' es, sound b -> close_open b = (b', es, SOk) ->
  (target b = None -> b_cur b = None) ->
  subseq (held b) (flat_map given (flat_map entry_postings es)).
Proof.
  intros b b' es S E NC. unfold close_open in E. unfold held in *. destruct (b_type b) eqn:TY.
  - destruct (b_txn b) as [t|] eqn:T.
    + destruct (endNormalTransaction b t) as [t' [e|]] eqn:EN; [discriminate|]. injection E as <- <-. cbn [flat_map entry_postings]. rewrite app_nil_r.
      apply (end_given b t); auto. unfold target. now rewrite TY.
    + unfold target in *. rewrite TY, T in *. rewrite NC by reflexivity. injection E as <- <-. constructor.
  - destruct (b_ptxn b) as [pt|] eqn:T.
    + destruct (endNormalTransaction b (pt_txn pt)) as [t' [e|]] eqn:EN; [discriminate|]. injection E as <- <-. cbn [flat_map entry_postings]. rewrite app_nil_r.
      apply (end_given b (pt_txn pt)); auto. unfold target. now rewrite TY, T.
    + unfold target in *. rewrite TY, T in *. cbn in *. rewrite NC by reflexivity. injection E as <- <-. constructor.
Qed.

Lemma fits_cur : forall s b, fits s b -> target b = None -> b_cur b = None.
Proof.
  intros s b F T. unfold target in T. destruct s; cbn in F.
  - now subst b.
  - apply F.
  - destruct F as (TY & (t & X) & _). rewrite TY in T. congruence.
  - destruct F as (TY & _ & (t & X) & _). rewrite TY, X in T. discriminate.
Qed.

Lemma encode_nonempty : forall a, a <> [] -> encode a <> [].
Proof. intros [|r a] H; [congruence|]. cbn. pose proof (encode_rune_nonempty r). destruct (encode_rune r); [congruence|discriminate]. Qed.

Definition holds (b b' : builder) : Prop := held b' = held b /\ (sound b -> sound b').

Lemma build_plain_held : forall b i c b', i = commentItem \/ i = transactionHeaderCommentItem \/ i = dateItem \/ i = stateItem \/ i = payeeItem \/ i = periodItem ->
  build b i c = POk b' -> holds b b'.
Proof.
  assert (forall b t t', target b = Some t -> t_postings t' = t_postings t -> t_elided t' = t_elided t ->
            held (set_target b t') = held b /\ (sound b -> sound (set_target b t'))) as ST.
  { intros b t t' T P E. unfold held, sound, set_target, target in *. destruct (b_type b) eqn:TY; cbn; rewrite ?TY.
    - rewrite T, P. split; [reflexivity|]. unfold elided_fits. rewrite P, E. auto.
    - destruct (b_ptxn b) as [pt|]; [|discriminate]. cbn in T. injection T as T. subst t. cbn. rewrite P. split; [reflexivity|]. unfold elided_fits. rewrite P, E. auto. }
  assert (forall b t t', b_txn b = Some t -> t_postings t' = t_postings t -> t_elided t' = t_elided t ->
            held (set_txn b t') = held b /\ (sound b -> sound (set_txn b t'))) as SX.
  { intros b t t' T P E. unfold held, sound, set_txn, target in *. destruct (b_type b) eqn:TY; cbn; rewrite ?TY; [|auto].
    rewrite T, P. split; [reflexivity|]. unfold elided_fits. rewrite P, E. auto. }
  assert (forall b i, held (set_prev b i) = held b /\ (sound b -> sound (set_prev b i))) as SP by (intros; split; [reflexivity|auto]).
  assert (forall b i c b', i = commentItem \/ i = transactionHeaderCommentItem \/ i = dateItem \/ i = stateItem \/ i = payeeItem \/ i = periodItem ->
    buildNormalTransaction b i c = POk b' -> held b' = held b /\ (sound b -> sound b')) as N.
  { intros b i c b' I B. unfold buildNormalTransaction in B.
    destruct I as [->|[->|[->|[->|[->| ->]]]]].
    - destruct (b_cur b) as [p|] eqn:C; [|discriminate]. destruct (po_account p) as [|x ac] eqn:A; cbn [is_nil negb] in B.
      + destruct (b_txn b) as [t|] eqn:T; [|discriminate]. injection B as <-. now apply (SX b t).
      + injection B as <-. unfold held, sound, set_cur, target, named_given. cbn. rewrite C, A. auto.
    - destruct (b_txn b) as [t|] eqn:T; [|discriminate]. injection B as <-. now apply (SX b t).
    - destruct (parseDate c) as [d|e|]; try discriminate. destruct (target b) as [t|] eqn:T; [|discriminate]. injection B as <-. now apply (ST b t).
    - destruct (negb _); [discriminate|]. destruct c; [discriminate|]. destruct (target b) as [t|] eqn:T; [|discriminate]. injection B as <-. now apply (ST b t).
    - destruct (negb _); [discriminate|]. destruct (target b) as [t|] eqn:T; [|discriminate]. injection B as <-. now apply (ST b t).
    - injection B as <-. auto. }
  intros b i c b' I B. unfold holds. unfold build in B. destruct (b_type b) eqn:TY.
  - destruct (buildNormalTransaction b i c) as [b1|e|] eqn:B1; try discriminate. injection B as <-. exact (N _ _ _ _ I B1).
  - unfold buildPeriodicTransaction in B. destruct (b_ptxn b) as [pt|] eqn:PT; [|discriminate].
    assert (i = periodItem \/ i <> periodItem) as [->|NP] by (destruct i; auto; right; discriminate).
    + injection B as <-. unfold held, sound, target. cbn. rewrite TY, PT. cbn. auto.
    + assert (exists b1, buildNormalTransaction b i c = POk b1 /\ b' = set_prev b1 i) as (b1 & B1 & ->).
      { destruct i; try congruence; destruct (buildNormalTransaction b _ c); try discriminate; injection B as <-; eauto. }
      exact (N _ _ _ _ I B1).
Qed.

Lemma build_account_held : forall b a b', a <> [] -> sound b -> build b accountItem a = POk b' ->
  sound b' /\ exists p, b_cur b' = Some p /\ po_account p = encode a /\
    match target b' with Some t => flat_map given (t_postings t) | None => [] end = held b.
Proof.
  intros b a b' NA S B.
  assert (exists b1, buildNormalTransaction b accountItem a = POk b1 /\ b' = set_prev b1 accountItem) as (b1 & B1 & ->).
  { unfold build, buildPeriodicTransaction in B. destruct (b_type b); [|destruct (b_ptxn b); [|discriminate]];
      (destruct (buildNormalTransaction b accountItem a); try discriminate; injection B as <-; eauto). }
  unfold buildNormalTransaction in B1. destruct (negb _); [discriminate|].
  destruct (b_cur b) as [p|] eqn:C; [|discriminate]. destruct (target b) as [t|] eqn:T; [|discriminate].
  unfold sound in S. rewrite T in S. destruct S as [S1 S2].
  assert (forall t', target (set_prev (set_cur (set_target b t') (Posting (po_comments p) (encode a) (po_amount p))) accountItem) = Some t') as TT.
  { intro t'. unfold set_target, target in *. destruct (b_type b) eqn:TY; cbn; rewrite ?TY; [reflexivity|]. destruct (b_ptxn b); [reflexivity|discriminate]. }
  assert (forall t' p', target (set_prev (set_cur (set_target b t') p') accountItem) = Some t') as TT'.
  { intros t' p'. exact (TT t'). }
  destruct (po_account p) as [|x ac] eqn:A; cbn [is_nil negb] in B1; injection B1 as <-; unfold sound; rewrite TT'.
  - split; [split; assumption|]. eexists. split; [reflexivity|]. split; [reflexivity|]. unfold held, named_given. rewrite T, C, A. now rewrite app_nil_r.
  - destruct (add_given t p S1 S2) as (X & Y & Z). split; [split; assumption|]. eexists. split; [reflexivity|]. split; [reflexivity|].
    unfold held, named_given. rewrite T, C, A. exact Z.
Qed.

Lemma build_money : forall b i c b', i = commodityItem \/ i = amountItem -> build b i c = POk b' ->
  exists p p', b_cur b = Some p /\ b_cur b' = Some p' /\ po_account p' = po_account p /\ target b' = target b /\
    (i = commodityItem -> exists q, po_amount p' = Some (Amount (encode c) q)) /\
    (i = amountItem -> forall m q, po_amount p = Some (Amount m q) -> exists q', parseAmount c = POk q' /\ po_amount p' = Some (Amount m q')).
Proof.
  intros b i c b' I B.
  assert (exists b1, buildNormalTransaction b i c = POk b1 /\ b' = set_prev b1 i) as (b1 & B1 & ->).
  { unfold build, buildPeriodicTransaction in B. destruct (b_type b).
    - destruct (buildNormalTransaction b i c); try discriminate; injection B as <-; eauto.
    - destruct (b_ptxn b); [|discriminate]. destruct I as [->| ->];
      (destruct (buildNormalTransaction b _ c); try discriminate; injection B as <-; eauto). }
  unfold buildNormalTransaction in B1. destruct I as [->| ->]; (destruct (negb _); [discriminate|]);
    (destruct (b_cur b) as [p|] eqn:C; [|discriminate]).
  - injection B1 as <-. exists p. eexists. split; [reflexivity|]. split; [reflexivity|]. cbn. repeat split; [|discriminate].
    intros _. destruct (po_amount p); eauto.
  - destruct (parseAmount c) as [q|e|] eqn:PA; try discriminate. injection B1 as <-. exists p. eexists. split; [reflexivity|]. split; [reflexivity|].
    cbn. repeat split; [discriminate|]. intros _ m q0 H. rewrite H. eauto.
Qed.

Lemma line_held : forall s l b b' es, fits s b -> sound b -> included U [] l = None -> flat_line U l b = (b', es, SOk) ->
  sound b' /\ subseq (held b ++ line_posting U l) (flat_map given (flat_map entry_postings es) ++ held b').
Proof.
  intros s l b b' es F S NI E. unfold flat_line, line_posting in *.
  assert (forall b1 i c, (forall _ : unit, i = commentItem \/ i = transactionHeaderCommentItem \/ i = dateItem \/ i = stateItem \/ i = payeeItem \/ i = periodItem) ->
     forall b2 es2, built b1 i c = (b2, es2, SOk) -> es2 = [] /\ holds b1 b2) as BP.
  { intros b1 i c I b2 es2 B. unfold built in B. destruct (build b1 i c) as [b3|e|] eqn:B3; try discriminate. injection B as <- <-.
    split; [reflexivity|]. eapply build_plain_held; [exact (I tt)|eassumption]. }
  assert (forall items b1 b2 es2, Forall (fun x => fst x = stateItem \/ fst x = payeeItem \/ fst x = transactionHeaderCommentItem) items ->
     flat_items b1 items None = (b2, es2, SOk) -> es2 = [] /\ holds b1 b2) as HEAD.
  { induction items as [|[i c] items IH]; intros b1 b2 es2 FI X.
    - cbn in X. injection X as <- <-. split; [reflexivity|]. split; auto.
    - inversion_clear FI as [|? ? Hi FI']. cbn [fst] in Hi. cbn [flat_items] in X. apply fbind_ok in X as (b3 & e3 & e4 & X1 & X2 & ->).
      assert (built b1 i c = (b3, e3, SOk)) as X1' by (destruct Hi as [->|[->| ->]]; exact X1).
      apply BP in X1' as [-> [H1 H2]]; [|intros _; tauto].
      apply IH in X2 as [-> [H3 H4]]; [|assumption]. split; [reflexivity|]. split; [congruence|auto]. }
  assert (forall b1 ty, held (beginTransaction b1 ty) = [] /\ sound (beginTransaction b1 ty)) as BG.
  { intros b1 []; (split; [reflexivity|]); unfold sound; cbn; (split; [|exact I]); intros i p H; discriminate H. }
  destruct (lex_forms U l) as [[e L]|[L|[[c L]|[[w L]|[[c L]|[(a & am & NA & L)|(w & state & payee & note & L & HS & HN)]]]]]];
    rewrite L in *; cbn [fst] in *.
  - cbn in E. destruct e; [discriminate|]. injection E as <- <-. cbn. rewrite app_nil_r. split; [assumption|apply subseq_refl].
  - cbn [flat_items flat_item] in E. rewrite fbind_ret in E. rewrite app_nil_r.
    pose proof (close_held b b' es S E (fits_cur s b F)) as K. pose proof (fits_close s b F) as FC. rewrite E in FC.
    split.
    + unfold sound. destruct (target b') eqn:T; [|exact I]. exfalso. destruct s; cbn in FC; [subst b'; discriminate T|..];
        unfold target in T; destruct FC as (X & Y & _); rewrite X, Y in T; destruct (b_type b'); discriminate T.
    + rewrite <- (app_nil_r (held b)). apply subseq_app; [exact K|apply subseq_nil_l].
  - exfalso. unfold included in NI. rewrite L in NI. discriminate.
  - cbn [flat_items flat_item] in E. rewrite fbind_ret in E. apply fbind_ok in E as (b1 & e1 & e2 & E1 & E2 & ->).
    pose proof (close_held b b1 e1 S E1 (fits_cur s b F)) as K.
    destruct (built (beginTransaction b1 periodicTransaction) periodItem w) as [[b2 e3] r3] eqn:B. cbn [rewrap] in E2.
    destruct r3; try discriminate. injection E2 as <- <-. apply BP in B as [-> [H1 H2]]; [|intros _; tauto].
    rewrite !app_nil_r. destruct (BG b1 periodicTransaction) as [G1 G2]. split; [auto|].
    rewrite <- (app_nil_r (held b)). apply subseq_app; [exact K|apply subseq_nil_l].
  - cbn [flat_items flat_item] in E. rewrite fbind_ret in E. apply BP in E as [-> [H1 H2]]; [|intros _; tauto]. cbn. rewrite app_nil_r, H1.
    split; [auto|apply subseq_refl].
  - (* a posting *)
    destruct am as [[cm qt]|]; cbn [posting_items flat_items flat_item] in E; cbn [posting_items].
    + apply fbind_ok in E as (b1 & e1 & e2 & E1 & E2 & ->). apply fbind_ok in E2 as (b2 & e3 & e4 & E2 & E3 & ->).
      apply fbind_ok in E3 as (b3 & e5 & e6 & E3 & E4 & ->). injection E4 as <- <-.
      unfold built in E1, E2, E3. destruct (build b accountItem a) as [b1'|?|] eqn:B1; try discriminate. injection E1 as <- <-.
      destruct (build b1' commodityItem cm) as [b2'|?|] eqn:B2; try discriminate. injection E2 as <- <-.
      destruct (build b2' amountItem qt) as [b3'|?|] eqn:B3; try discriminate. injection E3 as <- <-.
      destruct (build_account_held b a b1' NA S B1) as (S1 & p1 & C1 & A1 & G1).
      destruct (build_money b1' commodityItem cm b2' (or_introl eq_refl) B2) as (p1' & p2 & C1' & C2 & A2 & T2 & Q2 & _).
      destruct (build_money b2' amountItem qt b3' (or_intror eq_refl) B3) as (p2' & p3 & C2' & C3 & A3 & T3 & _ & Q3).
      rewrite C1 in C1'. injection C1' as <-. rewrite C2 in C2'. injection C2' as <-.
      destruct (Q2 eq_refl) as (q & PQ). destruct (Q3 eq_refl _ _ PQ) as (q' & PA & PQ').
      rewrite PA. unfold sound. rewrite T3, T2. split; [exact S1|]. cbn [app flat_map].
      unfold held at 2. rewrite T3, T2, G1, C3. unfold named_given, given. rewrite A3, A2, A1, PQ'.
      pose proof (encode_nonempty a NA). destruct (encode a); [congruence|]. apply subseq_refl.
    + rewrite fbind_ret in E. unfold built in E. destruct (build b accountItem a) as [b1'|?|] eqn:B1; try discriminate. injection E as <- <-.
      destruct (build_account_held b a b1' NA S B1) as (S1 & p1 & C1 & A1 & G1). split; [exact S1|]. cbn [app flat_map].
      unfold held at 2. rewrite G1. apply subseq_app; [apply subseq_refl|apply subseq_nil_l].
  - (* a header *)
    cbn [flat_items flat_item] in E. apply fbind_ok in E as (b2 & e2 & e3 & E1 & E2 & ->).
    apply fbind_ok in E1 as (b1 & e1 & e4 & E1 & E3 & ->).
    pose proof (close_held b b1 e1 S E1 (fits_cur s b F)) as K.
    destruct (built (beginTransaction b1 normalTransaction) dateItem w) as [[b2' e5] r5] eqn:B. cbn [rewrap] in E3.
    destruct r5; try discriminate. injection E3 as <- <-. apply BP in B as [-> [H1 H2]]; [|intros _; tauto].
    apply HEAD in E2 as [-> [H3 H4]].
    2:{ apply Forall_app. split; [destruct HS as [->|(c & _ & ->)]; repeat constructor|]. constructor; [cbn; tauto|].
        destruct HN as [->|[n ->]]; repeat constructor; cbn; tauto. }
    rewrite !app_nil_r. destruct (BG b1 normalTransaction) as [G1 G2]. split; [auto|].
    rewrite <- (app_nil_r (held b)).
    apply subseq_app; [exact K|apply subseq_nil_l].
Qed.

Lemma flat_held : forall ls s b b' es, plain_lines U ls -> stops_fail ls -> fits s b -> sound b ->
  flat U ls b = (b', es, SOk) ->
  subseq (held b ++ flat_map (fline_posting U) ls) (flat_map given (flat_map entry_postings es) ++ held b').
Proof.
  induction ls as [|[l|r] ls IH]; intros s b b' es PL SF F S E.
  - cbn in *. injection E as <- <-. rewrite app_nil_r. apply subseq_refl.
  - cbn [flat] in E. apply fbind_ok in E as (b1 & e1 & e2 & E1 & E2 & ->).
    inversion_clear PL as [|? ? NI PL']. inversion_clear SF as [|? ? _ SF'].
    destruct (line_held s l b b1 e1 F S NI E1) as [S1 K].
    pose proof (fits_line U s l b F NI) as FL. unfold line_result in FL. rewrite E1 in FL. destruct FL as [F1 _].
    specialize (IH _ _ _ _ PL' SF' F1 S1 E2). cbn [flat_map fline_posting].
    rewrite !flat_map_app. rewrite <- app_assoc, app_assoc.
    eapply subseq_trans; [apply subseq_app; [apply subseq_refl|exact IH]|].
    rewrite app_assoc. apply subseq_app; [exact K|apply subseq_refl].
  - cbn in E. injection E as _ _ ->. inversion SF. congruence.
Qed.

Lemma flat_fits : forall ls s b b' es, plain_lines U ls -> stops_fail ls -> fits s b ->
  flat U ls b = (b', es, SOk) -> exists s', fits s' b'.
Proof.
  induction ls as [|[l|r] ls IH]; intros s b b' es PL SF F E.
  - cbn in E. injection E as <- <-. eauto.
  - cbn [flat] in E. apply fbind_ok in E as (b1 & e1 & e2 & E1 & E2 & ->).
    inversion_clear PL as [|? ? NI PL']. inversion_clear SF as [|? ? _ SF'].
    pose proof (fits_line U s l b F NI) as FL. unfold line_result in FL. rewrite E1 in FL. destruct FL as [F1 _]. eauto.
  - cbn in E. injection E as _ _ ->. inversion SF. congruence.
Qed.

Lemma nothing_held : forall fs depth hint f b es,
  flat U (expand U fs depth hint f) newBuilder = (b, es, SOk) -> held b = [].
Proof.
  intros fs depth hint f b es FL.
  pose proof (flat_nothing_open U fs depth hint f b es FL) as PN.
  destruct (flat_fits _ Fresh newBuilder b es (expand_plain U fs depth hint f) (expand_stops U fs depth hint f) eq_refl FL) as (s & F).
  assert (target b = None) as T.
  { unfold pending in PN. unfold target. destruct (b_type b); [now destruct (b_txn b)|now destruct (b_ptxn b)]. }
  unfold held. now rewrite T, (fits_cur s b F T).
Qed.
End Kept.
