(** * Dates and periods of the entries delivered *)
From Verif Require Import Base BaseFacts Utf8 Unicode GoTime Strconv Journal Lexer Parser FlatSpec FlatFacts
  Spec BuilderFacts TextSpec DateFacts Cmd CmdSpec.

Lemma numeral4_range : forall s n, numeral 4 s n -> 0 <= n <= 9999.
Proof.
  intros s n H. apply numeral4_inv in H as (c1 & c2 & c3 & c4 & _ & D1 & D2 & D3 & D4 & ->).
  unfold digit in *. lia.
Qed.

Definition dated (d : date) : Prop := real_date d /\ 0 <= d_year d <= 9999.

Lemma dated_zero : dated zero_date.
Proof.
  split; [|cbn; lia]. apply real_date_iff; cbn; lia.
Qed.

Lemma parseDate_dated : forall w d, parseDate w = POk d -> dated d.
Proof.
  intros w d H. unfold parseDate in H. destruct (nth_error w 4) as [c|]; [|discriminate].
  destruct (_ || _); [|discriminate]. destruct (time_parse (layout_ymd c) (encode w)) as [d'|] eqn:T; [|discriminate].
  injection H as <-. apply time_parse_ymd in T as [T R]. split; [exact R|]. destruct T as [y m dd N _ _].
  eapply numeral4_range; eauto.
Qed.

(** Periods are single months, or nothing at all. *)
Definition a_month (p : period) : Prop :=
  dated (pe_start p) /\ d_day (pe_start p) = 1 /\ pe_interval p = PNone.

Lemma parsePeriod_month : forall c, a_month (parsePeriod c).
Proof.
  intro c. unfold parsePeriod. destruct (time_parse (layout_ym c_dash) (encode c)) as [d|] eqn:T.
  - apply time_parse_ym in T as (ys & ms & N4 & N2 & M & Dd & _). unfold a_month. cbn. split; [|auto]. split.
    + apply real_date_iff; [exact M|]. rewrite Dd. unfold days_in. destruct (d_month d =? 2); [destruct (is_leap (d_year d)); lia|].
      destruct (_ || _); lia.
    + eapply numeral4_range; eauto.
  - split; [exact dated_zero|]. auto.
Qed.

Definition dated_builder (b : builder) : Prop :=
  (forall t, b_txn b = Some t -> dated (t_date t)) /\
  (forall pt, b_ptxn b = Some pt -> a_month (pt_period pt)).

Definition dated_entry (e : entry) : Prop :=
  match e with TxnEntry t => dated (t_date t) | PerEntry pt => a_month (pt_period pt) end.

Lemma zero_month : a_month zero_period.
Proof. split; [exact dated_zero|]. auto. Qed.

Lemma dated_set_target : forall b t, dated_builder b ->
  (b_type b = normalTransaction -> dated (t_date t)) -> dated_builder (set_target b t).
Proof.
  intros b t [H1 H2] D. unfold set_target. destruct (b_type b); split; cbn; auto.
  - intros t0 E. injection E as <-. auto.
  - destruct (b_ptxn b) as [pt|]; [|discriminate]. cbn. intros ? E. injection E as <-. cbn. auto.
Qed.

Lemma dated_target : forall b t, dated_builder b -> target b = Some t -> b_type b = normalTransaction -> dated (t_date t).
Proof. intros b t [H1 _] T N. unfold target in T. rewrite N in T. auto. Qed.

Lemma addPosting_date : forall t p, t_date (fst (t_addPosting t p)) = t_date t.
Proof. intros t p. unfold t_addPosting. destruct (po_amount p); [reflexivity|]. destruct (t_elided t); reflexivity. Qed.

Lemma close_date : forall t, t_date (fst (t_close t)) = t_date t.
Proof.
  intro t. unfold t_close. destruct (close_loop _ _ _) as [s c]. destruct (negb (s =? 0)); [|reflexivity].
  destruct (t_elided t); reflexivity.
Qed.

Lemma endNormal_date : forall b t, t_date (fst (endNormalTransaction b t)) = t_date t.
Proof.
  intros b t. unfold endNormalTransaction. destruct (b_cur b) as [p|].
  - pose proof (addPosting_date t p) as X. destruct (t_addPosting t p) as [t1 [e|]]; cbn [fst] in *; [exact X|].
    rewrite close_date. destruct (_ && _); [rewrite addPosting_date|]; exact X.
  - rewrite close_date. destruct (_ && _); [apply addPosting_date|reflexivity].
Qed.

Lemma dated_set_cur : forall b p, dated_builder b -> dated_builder (set_cur b p).
Proof. intros b p [H1 H2]. split; auto. Qed.

Lemma dated_buildNormal : forall b i c b', dated_builder b -> buildNormalTransaction b i c = POk b' -> dated_builder b'.
Proof.
  intros b i c b' G H. unfold buildNormalTransaction in H.
  destruct i; try (injection H as <-; assumption).
  - destruct (parseDate c) as [d|e|] eqn:P; try discriminate.
    destruct (target b) as [t|] eqn:T; [|discriminate]. injection H as <-.
    apply dated_set_target; [assumption|]. intros _. cbn. eapply parseDate_dated; eauto.
  - destruct (negb (prev_in b [dateItem])); [discriminate|]. destruct c; [discriminate|].
    destruct (target b) as [t|] eqn:T; [|discriminate]. injection H as <-.
    apply dated_set_target; [assumption|]. cbn. eapply dated_target; eassumption.
  - destruct (negb (prev_in b [dateItem; stateItem])); [discriminate|].
    destruct (target b) as [t|] eqn:T; [|discriminate]. injection H as <-.
    apply dated_set_target; [assumption|]. cbn. eapply dated_target; eassumption.
  - destruct (negb _); [discriminate|]. destruct (b_cur b) as [p|] eqn:C; [|discriminate].
    destruct (target b) as [t|] eqn:T; [|discriminate].
    destruct (negb (is_nil (po_account p))); injection H as <-; apply dated_set_cur; apply dated_set_target; auto;
      try rewrite addPosting_date; eapply dated_target; eassumption.
  - destruct (negb _); [discriminate|]. destruct (b_cur b) as [p|] eqn:C; [|discriminate].
    injection H as <-. now apply dated_set_cur.
  - destruct (negb _); [discriminate|]. destruct (b_cur b) as [p|] eqn:C; [|discriminate].
    destruct (parseAmount c) as [q|e|] eqn:E; try discriminate. injection H as <-. now apply dated_set_cur.
  - destruct (b_cur b) as [p|] eqn:C; [|discriminate].
    destruct (negb (is_nil (po_account p))).
    + injection H as <-. now apply dated_set_cur.
    + destruct (b_txn b) as [t|] eqn:T; [|discriminate]. injection H as <-. destruct G as [G1 G2].
      split; cbn; [|exact G2]. intros ? E. injection E as <-. cbn. auto.
  - destruct (b_txn b) as [t|] eqn:T; [|discriminate]. injection H as <-. destruct G as [G1 G2].
    split; cbn; [|exact G2]. intros ? E. injection E as <-. cbn. auto.
Qed.

Lemma dated_build : forall b i c b', dated_builder b -> build b i c = POk b' -> dated_builder b'.
Proof.
  intros b i c b' G. unfold build.
  destruct (match b_type b with normalTransaction => _ | periodicTransaction => _ end) as [b1|e|] eqn:E;
    try discriminate.
  intro H. injection H as <-.
  assert (dated_builder b1) as G1; [|exact G1].
  destruct (b_type b); [eapply dated_buildNormal; eassumption|].
  unfold buildPeriodicTransaction in E. destruct (b_ptxn b) as [pt|] eqn:PT; [|discriminate].
  destruct i; try (eapply dated_buildNormal; eassumption).
  injection E as <-. destruct G as (H1 & H2). split; cbn; auto.
  intros ? E. injection E as <-. cbn. apply parsePeriod_month.
Qed.

Lemma dated_close : forall b, dated_builder b -> keeps dated_builder dated_entry (close_open b).
Proof.
  intros b G. pose proof G as (H1 & H2). unfold close_open. destruct (b_type b).
  - destruct (b_txn b) as [t|] eqn:T; [|split; auto].
    pose proof (endNormal_date b t) as D. destruct (endNormalTransaction b t) as [t' [e|]]; [split; auto|].
    split; [split; cbn; auto; discriminate|]. constructor; [|constructor]. cbn in *. rewrite D. auto.
  - destruct (b_ptxn b) as [t|] eqn:T; [|split; auto].
    destruct (endNormalTransaction b (pt_txn t)) as [t' [e|]]; [split; auto|].
    split; [split; cbn; auto; discriminate|]. constructor; [|constructor]. cbn. auto.
Qed.

Lemma dated_begin : forall b ty, dated_builder b -> dated_builder (beginTransaction b ty).
Proof.
  intros b ty [H1 H2]. destruct ty; split; cbn; auto; intros ? E; injection E as <-.
  - exact dated_zero.
  - exact zero_month.
Qed.

Lemma entries_dated : forall U fs depth hint f, Forall dated_entry (fst (entries U fs depth hint f)).
Proof.
  intros. unfold entries.
  assert (K : keeps dated_builder dated_entry (flat U (expand U fs depth hint f) newBuilder)).
  { apply keeps_flat; auto using dated_close, dated_begin; [exact dated_build|]. split; discriminate. }
  destruct (flat U (expand U fs depth hint f) newBuilder) as [[b es] r]. now destruct K.
Qed.

Definition dated_event (ev : event) : Prop :=
  match ev with ETxn t _ => dated (t_date t) | EPer pt _ => a_month (pt_period pt) end.

Lemma trace_dated : forall U fs depth hint f, Forall dated_event (fst (trace U fs depth hint f)).
Proof.
  intros. apply Forall_forall. intros ev H.
  pose proof (entries_dated U fs depth hint f) as B. rewrite Forall_forall in B.
  destruct (trace_flat U fs depth hint f) as [E _].
  specialize (B (erase ev)). rewrite <- E in B. specialize (B (in_map erase _ _ H)). destruct ev; exact B.
Qed.

Lemma stream_dated : forall E O, Forall dated_event (fst (stream E O)).
Proof.
  intros E O. unfold stream. destruct (journal_path E O) as [p|]; [|constructor].
  destruct (e_fs E p); [apply trace_dated|constructor].
Qed.

(** ** Balance *)
Definition balanced_event (ev : event) : Prop :=
  match ev with
  | ETxn t _ => zero64 (total (t_postings t)) /\ amounts_in_range (t_postings t)
  | EPer pt _ => zero64 (total (t_postings (pt_txn pt))) /\ amounts_in_range (t_postings (pt_txn pt))
  end.
Lemma stream_balanced : forall E O, Forall balanced_event (fst (stream E O)).
Proof.
  intros E O. unfold stream. destruct (journal_path E O) as [p|]; [|constructor].
  destruct (e_fs E p) as [f|]; [|constructor]. apply Forall_forall. intros ev H.
  pose proof (entries_balanced (e_unicode E) (e_fs E) (e_depth E) p f) as B. rewrite Forall_forall in B.
  destruct (trace_flat (e_unicode E) (e_fs E) (e_depth E) p f) as [Q _].
  specialize (B (erase ev)). rewrite <- Q in B. specialize (B (in_map erase _ _ H)). destruct ev; exact B.
Qed.
