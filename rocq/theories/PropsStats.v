(** * Properties of the commands: C44, C56, C59 *)
From Verif Require Import Base BaseFacts Utf8 Utf8Facts Unicode GoTime Strconv Display Journal Lexer Parser ParserFacts
  Account Reporting Budget Humanize Cmd Spec JournalFacts TextSpec DateFacts CalendarFacts AmountFacts CmdSpec StreamFacts CmdFacts Sample PropsCmd.

(** ** C44: statistics *)

(** What is counted. *)
Definition used_accounts (sel : list (used * list posting)) (a : str) : Prop :=
  exists u ps p, In (u, ps) sel /\ In p ps /\ po_account p = a.
Definition used_payees (sel : list (used * list posting)) (a : str) : Prop :=
  exists u ps, In (u, ps) sel /\ t_payee (u_txn u) = a.
Definition used_files (sel : list (used * list posting)) (a : str) : Prop :=
  exists u ps, In (u, ps) sel /\ u_path u = a.
(** [l] lists the texts that satisfy [P], each once. *)
Definition lists (P : str -> Prop) (l : list str) : Prop := NoDup l /\ forall x, In x l <-> P x.
Definition earliest (sel : list (used * list posting)) (d : date) : Prop :=
  In d (map t_date (selected sel)) /\ forall d', In d' (map t_date (selected sel)) -> ~ earlier d' d.
Definition latest (sel : list (used * list posting)) (d : date) : Prop :=
  In d (map t_date (selected sel)) /\ forall d', In d' (map t_date (selected sel)) -> ~ earlier d d'.

Lemma date_eqb_eq : forall a b, date_eqb a b = true <-> a = b.
Proof.
  intros [y m d] [y' m' d']. unfold date_eqb. cbn. rewrite !andb_true_iff, !Z.eqb_eq. split; [intros [[-> ->] ->]; reflexivity|].
  intro H. inversion H; auto.
Qed.

Definition earliest64 (ds : list date) (d : date) : Prop := In d ds /\ Forall (fun d' => instant d <= instant d') ds.
Definition latest64 (ds : list date) (d : date) : Prop := In d ds /\ Forall (fun d' => instant d' <= instant d) ds.

(** The state after the transactions [sel]. *)
Record counted (sel : list (used * list posting)) (s : stats) : Prop := {
  c_count : s_count s = Z.of_nat (length sel);
  c_accounts : lists (used_accounts sel) (s_accounts s);
  c_payees : lists (used_payees sel) (s_payees s);
  c_files : lists (used_files sel) (s_files s);
  c_none : sel = [] -> s_first s = zero_date /\ s_last s = zero_date;
  c_dates : Forall (fun t => t_date t <> zero_date) (selected sel) -> sel <> [] ->
    earliest64 (map t_date (selected sel)) (s_first s) /\ latest64 (map t_date (selected sel)) (s_last s) }.

Lemma counted_new : counted [] newStats.
Proof.
  split; cbn; auto.
  - split; [constructor|]. intro x. split; [intros []|]. intros (u & ps & p & [] & _).
  - split; [constructor|]. intro x. split; [intros []|]. intros (u & ps & [] & _).
  - split; [constructor|]. intro x. split; [intros []|]. intros (u & ps & [] & _).
  - contradiction.
Qed.

Lemma counted_step : forall sel s u ps s', counted sel s -> stats_step s (u_txn u) ps (u_path u) = Some s' ->
  counted (sel ++ [(u, ps)]) s'.
Proof.
  intros sel s u ps s' [Cc Ca Cp Cf Cn Cd] H. unfold stats_step in H.
  destruct (fold_left _ ps _) as [[inc exp]|]; [|discriminate]. injection H as <-.
  split; cbn [s_count s_accounts s_payees s_files s_first s_last].
  - rewrite app_length. cbn. lia.
  - destruct Ca as [N Ca]. split; [now apply set_adds_nodup|]. intro x. rewrite set_adds_in, Ca. unfold used_accounts. split.
    + intros [(v & qs & p & I & Q)|(p & I & Q)].
      * exists v, qs, p. split; [apply in_app_iff; auto|auto].
      * exists u, ps, p. split; [apply in_app_iff; right; now left|auto].
    + intros (v & qs & p & I & J & Q). apply in_app_iff in I as [I|[I|[]]]; [left; eauto 6|]. inversion I; subst. eauto.
  - destruct Cp as [N Cp]. split; [now apply set_add_nodup|]. intro x. rewrite set_add_in, Cp. unfold used_payees. split.
    + intros [(v & qs & I & Q)|Q].
      * exists v, qs. split; [apply in_app_iff; auto|auto].
      * exists u, ps. split; [apply in_app_iff; right; now left|auto].
    + intros (v & qs & I & Q). apply in_app_iff in I as [I|[I|[]]]; [left; eauto|]. inversion I; subst. auto.
  - destruct Cf as [N Cf]. split; [now apply set_add_nodup|]. intro x. rewrite set_add_in, Cf. unfold used_files. split.
    + intros [(v & qs & I & Q)|Q].
      * exists v, qs. split; [apply in_app_iff; auto|auto].
      * exists u, ps. split; [apply in_app_iff; right; now left|auto].
    + intros (v & qs & I & Q). apply in_app_iff in I as [I|[I|[]]]; [left; eauto|]. inversion I; subst. auto.
  - intro X. destruct sel; discriminate.
  - intros F _. unfold selected in *. rewrite map_app in F |- *. apply Forall_app in F as [F1 F2]. cbn [map fst] in *.
    inversion F2 as [|? ? Nz _]; subst. set (d := t_date (u_txn u)) in *. rewrite map_app. cbn [map]. fold d.
    unfold earliest64, latest64. rewrite !Forall_app, !in_app_iff.
    destruct sel as [|x0 sel0].
    + destruct (Cn eq_refl) as [-> ->]. cbn. repeat split; auto; repeat constructor; lia.
    + destruct (Cd F1 ltac:(discriminate)) as [[I1 L1] [I2 L2]].
      assert (Z1 : is_zero (s_first s) = false).
      { unfold is_zero. destruct (date_eqb (s_first s) zero_date) eqn:Q; [|reflexivity]. apply date_eqb_eq in Q.
        rewrite Forall_forall in F1. apply in_map_iff in I1 as (t & Qt & It). exfalso. apply (F1 t It). congruence. }
      assert (Z2 : is_zero (s_last s) = false).
      { unfold is_zero. destruct (date_eqb (s_last s) zero_date) eqn:Q; [|reflexivity]. apply date_eqb_eq in Q.
        rewrite Forall_forall in F1. apply in_map_iff in I2 as (t & Qt & It). exfalso. apply (F1 t It). congruence. }
      rewrite Z1, Z2. cbn [orb]. unfold date_before.
      destruct (Z.ltb_spec (instant d) (instant (s_first s))); destruct (Z.ltb_spec (instant (s_last s)) (instant d));
        repeat match goal with |- _ /\ _ => split end;
        first [ left; assumption | right; left; reflexivity
              | apply Forall_cons; [lia|apply Forall_nil]
              | eapply Forall_impl; [|exact L1]; cbn; intros; lia
              | eapply Forall_impl; [|exact L2]; cbn; intros; lia ].
Qed.

Definition no_income_without_amount (ps : list posting) : Prop :=
  Forall (fun p => po_amount p = None -> hd [] (split 58 (po_account p)) <> lit "Income" /\ hd [] (split 58 (po_account p)) <> lit "Expenses") ps.

Lemma stats_step_total : forall s t ps path, no_income_without_amount ps -> exists s', stats_step s t ps path = Some s'.
Proof.
  intros s t ps path F. unfold stats_step.
  assert (X : exists r, fold_left (stats_posting (t_date t)) ps (Some (s_income s, s_expense s)) = Some r).
  { generalize (s_income s, s_expense s). induction F as [|p ps H _ IH]; intros st; cbn [fold_left]; [eauto|].
    assert (exists r, stats_posting (t_date t) (Some st) p = Some r) as [r ->]; [|apply IH].
    unfold stats_posting. destruct st as [inc exp]. change colon with 58.
    destruct (str_eqb (hd [] (split 58 (po_account p))) IncomeID) eqn:Q1.
    - destruct (po_amount p); [eauto|]. apply str_eqb_eq in Q1. destruct (H eq_refl) as [A _]. contradiction.
    - destruct (str_eqb (hd [] (split 58 (po_account p))) ExpensesID) eqn:Q2; [|eauto].
      destruct (po_amount p); [eauto|]. apply str_eqb_eq in Q2. destruct (H eq_refl) as [_ A]. contradiction. }
  destruct X as [[inc exp] ->]. eauto.
Qed.

Lemma stats_run_spec : forall E O fs s r, sane_clock E -> orders E -> stats_run E O fs = (s, r) ->
  h_out s = [] /\
  (r = SOk -> readable E O /\ exists sel, picks E O fs (txns 0 (fst (stream E O))) sel /\ counted sel (h_data s)) /\
  (readable E O -> Forall (fun u => no_income_without_amount (t_postings (u_txn u))) (txns 0 (fst (stream E O))) -> r = SOk).
Proof.
  intros E O fs s r C Or R. unfold stats_run in R. set (h := Some (checked E O fs stats_handler)) in *. set (s0 := HS 0 [] newStats) in *. split; [|split].
  - pose proof (parse_cmd_fold E O _ h None s0) as F. destruct (stream E O) as [evs r0].
    assert (X : forall evs s, h_out s = [] -> h_out (fst (deliver_all h None s evs)) = []).
    { clear. induction evs as [|[t p|pt p] evs IH]; intros s H; [exact H| |cbn; auto]. cbn [deliver_all deliver].
      unfold h at 1. unfold checked. destruct (checkAgainstFilters E O fs (h_n s) t) as [[m ps]|e|]; try exact H.
      destruct (negb m && is_nil ps); [apply IH; exact H|]. unfold stats_handler.
      destruct (stats_step _ t ps p); [cbn; apply IH; exact H|exact H]. }
    specialize (X evs s0 eq_refl). destruct (deliver_all h None s0 evs) as [s' r']. destruct F as [F _]. rewrite R in F. cbn in F. now subst.
  - intros ->. apply parse_cmd_ok in R as [St R].
    destruct (checked_run E O C Or _ fs stats_handler None (fun sel s => counted sel (h_data s))) with (evs := fst (stream E O)) (sel := @nil (used * list posting)) (s := s0) (s' := s) as [F (more & P & D)]; auto.
    + intros sel s1 u ps s' H _ _ _ _ K. unfold stats_handler in K. destruct (stats_step (h_data s1) (u_txn u) ps (u_path u)) as [d|] eqn:Es; [|discriminate].
      inversion K; subst. split; [|reflexivity]. cbn. eapply counted_step; eauto.
    + intros sel s1 pt p s' H K. inversion K; subst. auto.
    + exact counted_new.
    + split; [split; [exact St|exact F]|]. eauto.
  - intros [St F] A.
    assert (A' : Forall (fun ev => match ev with ETxn t p => no_income_without_amount (t_postings t) | EPer _ _ => True end) (fst (stream E O))).
    { clear - A. revert A. generalize 0%nat. induction (fst (stream E O)) as [|[t p|pt p] evs IH]; intros n A; cbn [txns] in A; [constructor| |].
      - inversion A; subst. constructor; [assumption|]. eapply IH; eauto.
      - constructor; [exact Logic.I|]. eapply IH; eauto. }
    destruct (checked_total E O C Or _ fs stats_handler None (fun _ => True)
      (fun ev => match ev with ETxn t p => no_income_without_amount (t_postings t) | EPer _ _ => True end)) with (evs := fst (stream E O)) (s := s0) as [s' [R' _]]; auto.
    + intros s1 n t ps p _ Q P. assert (N : no_income_without_amount ps).
      { apply Forall_forall. intros q Iq. unfold no_income_without_amount in Q. rewrite Forall_forall in Q. apply Q.
        apply hits_in with E fs. eapply Permutation_in; eauto. }
      destruct (stats_step_total (h_data s1) t ps p N) as [d Q']. exists (HS (h_n s1) (h_out s1) d).
      unfold stats_handler. rewrite Q'. auto.
    + intros s1 pt p _ _. exists s1. auto.
    + assert (Q : parse_cmd E O h None s0 = (s', SOk)) by (apply parse_cmd_ok; auto). congruence.
Qed.

Lemma canonical_z : forall n, 0 <= n -> canonical (itoa n) n.
Proof. intros n H. unfold itoa. destruct (Z.ltb_spec n 0); [lia|]. now apply canonical_itoa. Qed.

Definition tab : str := [9].
Definition shown_date (E : env) (n : nat) (d : date) : str := format_date d ++ lit " (" ++ humanize (e_now E n) (instant d * ns) ++ lit ")" ++ [10].

(** When stats ends normally: nothing was selected, or the counts are those of
    the selection; the dates too, unless a transaction is dated 0001-01-01. *)
Theorem C44_stats_partial : forall E O fs out, sane_clock E -> orders E -> filters_for E (o_args O) fs ->
  stats_cmd E O = Outcome out SOk ->
  readable E O /\ exists sel, picks E O fs (txns 0 (fst (stream E O))) sel /\
  (sel = [] -> out = lines [lit "No transactions matched arguments."]) /\
  (sel <> [] -> exists nf fl fd ld period nt rate na np age accs pays files,
     out = [lit "Transactions found in " ++ nf ++ lit " files:" ++ [10]] ++ map (fun p => lit "  " ++ p ++ [10]) fl ++
       [lit "First transaction:" ++ tab ++ shown_date E 0 fd; lit "Last transaction:" ++ tab ++ shown_date E 1 ld;
        lit "Time period:" ++ tab ++ tab ++ period;
        lit "Transactions:" ++ tab ++ tab ++ nt ++ lit " (" ++ rate;
        lit "Unique accounts:" ++ tab ++ na ++ [10]; lit "Unique payees:" ++ tab ++ tab ++ np ++ [10];
        lit "Age of money:" ++ tab ++ tab ++ age] /\
     canonical nt (Z.of_nat (length sel)) /\
     lists (used_accounts sel) accs /\ canonical na (Z.of_nat (length accs)) /\
     lists (used_payees sel) pays /\ canonical np (Z.of_nat (length pays)) /\
     lists (used_files sel) files /\ canonical nf (Z.of_nat (length files)) /\ Permutation fl files /\
     (Forall (fun t => t_date t <> Date 1 1 1) (selected sel) -> earliest sel fd /\ latest sel ld)).
Proof.
  intros E O fs out C Or F H. apply makeFilters_spec in F. unfold stats_cmd, with_filters in H. rewrite F in H.
  unfold finish in H. destruct (stats_run E O fs) as [s r] eqn:R. destruct (stats_run_spec E O fs s r C Or R) as (Ho & K & _).
  destruct r; try discriminate. destruct (K eq_refl) as (Rd & sel & P & [Cc Ca Cp Cf Cn Cd]). split; [exact Rd|]. exists sel. split; [exact P|].
  injection H as H. rewrite Ho in H. cbn [app] in H. unfold stats_report in H. rewrite Cc in H. split.
  - intros ->. cbn in H. now subst.
  - intro Ne. destruct (Z.eqb_spec (Z.of_nat (length sel)) 0) as [Q|Q]; [destruct sel; [contradiction|discriminate]|].
    cbv zeta in H. do 13 eexists. split; [symmetry; exact H|].
    split; [apply canonical_z; lia|]. split; [exact Ca|]. split; [apply canonical_z; lia|]. split; [exact Cp|].
    split; [apply canonical_z; lia|]. split; [exact Cf|]. split; [apply canonical_z; lia|]. split; [apply (proj1 Or)|].
    intro Nz. destruct (Cd Nz Ne) as [[I1 L1] [I2 L2]].
    assert (RD : forall d, In d (map t_date (selected sel)) -> real_date d).
    { intros d I. apply in_map_iff in I as (t & <- & I). eapply selected_dated; eauto. }
    rewrite Forall_forall in L1, L2. split; (split; [assumption|]); intros d' I X; apply instant_order in X; auto.
    + specialize (L1 d' I). lia.
    + specialize (L2 d' I). lia.
Qed.

(** And it does end normally when the journal can be read, unless a posting to
    Income or Expenses has no amount. *)
Lemma stats_step_amounts : forall s t ps path s', stats_step s t ps path = Some s' -> no_income_without_amount ps.
Proof.
  intros s t ps path s' H. unfold stats_step in H. destruct (fold_left (stats_posting (t_date t)) ps (Some (s_income s, s_expense s))) as [r|] eqn:Fo; [|discriminate].
  clear H. revert Fo. generalize (s_income s, s_expense s).
  assert (N : forall l, fold_left (stats_posting (t_date t)) l None = None) by (induction l as [|x l IH]; [reflexivity|exact IH]).
  induction ps as [|p ps IH]; intros st H; [constructor|]. cbn [fold_left] in H.
  destruct (stats_posting (t_date t) (Some st) p) as [st'|] eqn:Q; [|rewrite N in H; discriminate]. constructor; [|eapply IH; exact H].
  intro A. unfold stats_posting in Q. destruct st as [inc exp]. change colon with 58 in Q. rewrite A in Q.
  destruct (str_eqb (hd [] (split 58 (po_account p))) IncomeID) eqn:Q1; [discriminate|].
  destruct (str_eqb (hd [] (split 58 (po_account p))) ExpensesID) eqn:Q2; [discriminate|].
  split; intro X; [rewrite X in Q1; vm_compute in Q1|rewrite X in Q2; vm_compute in Q2]; discriminate.
Qed.

Lemma amounts_app : forall a b, no_income_without_amount a -> no_income_without_amount b -> no_income_without_amount (a ++ b).
Proof. intros a b A B. apply Forall_app. auto. Qed.

(** stats ends normally exactly when the journal can be read and every selected
    posting of an account under Income or Expenses has an amount. *)
Theorem C44_completes : forall E O fs, sane_clock E -> orders E -> filters_for E (o_args O) fs ->
  (r_status (stats_cmd E O) = SOk <->
   readable E O /\ exists sel, picks E O fs (txns 0 (fst (stream E O))) sel /\ no_income_without_amount (taken sel)).
Proof.
  intros E O fs C Or F. apply makeFilters_spec in F. unfold stats_cmd, with_filters. rewrite F.
  transitivity (snd (stats_run E O fs) = SOk).
  { unfold finish. destruct (stats_run E O fs) as [s []]; cbn; split; congruence. }
  unfold stats_run. set (s0 := HS 0 [] newStats). split.
  - intro R. destruct (parse_cmd E O (Some (checked E O fs stats_handler)) None s0) as [s r] eqn:Q. cbn [snd] in R. subst r.
    apply parse_cmd_ok in Q as [St R].
    destruct (checked_run E O C Or _ fs stats_handler None (fun sel _ => no_income_without_amount (taken sel))) with (evs := fst (stream E O)) (sel := @nil (used * list posting)) (s := s0) (s' := s) as [Fl (more & P & D)]; auto.
    + intros sel s1 u ps s' H _ _ _ _ K. unfold stats_handler in K. destruct (stats_step (h_data s1) (u_txn u) ps (u_path u)) as [d|] eqn:Es; [|discriminate].
      inversion K; subst. split; [|reflexivity]. unfold taken. rewrite flat_map_app. cbn [flat_map snd]. rewrite app_nil_r.
      apply amounts_app; [exact H|]. eapply stats_step_amounts; exact Es.
    + intros sel s1 pt p s' H K. inversion K; subst. auto.
    + constructor.
    + split; [split; [exact St|exact Fl]|]. eauto.
  - intros [[St Fl] (sel & P & A)].
    destruct (picked_total E O C Or _ fs stats_handler None (fun _ => True) no_income_without_amount) with (evs := fst (stream E O)) (s := s0) (sel := sel) as [s' [R' _]]; auto.
    + intros ps ps' Pm. apply Permutation_Forall. exact Pm.
    + intros s1 n t ps p _ Q. destruct (stats_step_total (h_data s1) t ps p Q) as [d Q']. exists (HS (h_n s1) (h_out s1) d).
      unfold stats_handler. rewrite Q'. auto.
    + intros s1 pt p _. exists s1. auto.
    + clear -A. unfold taken in A. induction sel as [|[u ps] sel IH]; [constructor|]. cbn [flat_map snd] in A. apply Forall_app in A as [A1 A2]. constructor; auto.
    + rewrite (proj2 (parse_cmd_ok E O _ (Some (checked E O fs stats_handler)) None s0 s') (conj St R')). reflexivity.
Qed.

Example C44_example :
  let E := env0 files3 in let O := opts3 [] [] false [] in
  stats_cmd E O = Outcome [lit "Transactions found in 1 files:" ++ [10]; lit "  j" ++ [10];
     lit "First transaction:" ++ tab ++ lit "2021-03-01 (5 months ago)" ++ [10];
     lit "Last transaction:" ++ tab ++ lit "2021-03-03 (5 months ago)" ++ [10];
     lit "Time period:" ++ tab ++ tab ++ lit "2 days" ++ [10];
     lit "Transactions:" ++ tab ++ tab ++ lit "3 (1.5 per day)" ++ [10];
     lit "Unique accounts:" ++ tab ++ lit "3" ++ [10]; lit "Unique payees:" ++ tab ++ tab ++ lit "3" ++ [10];
     lit "Age of money:" ++ tab ++ tab ++ lit "0 days" ++ [10]] SOk /\
  filters_for E (o_args O) [] /\ readable E O /\
  Forall (fun u => no_income_without_amount (t_postings (u_txn u))) (txns 0 (fst (stream E O))).
Proof.
  intros E O. split; [vm_compute; reflexivity|]. split; [apply makeFilters_spec; reflexivity|].
  split; [apply readable_noflags; vm_compute; reflexivity|].
  apply Forall_forall. intros u I. unfold no_income_without_amount. apply Forall_forall. intros p Ip Q. exfalso.
  assert (forallb (fun u => forallb (fun p => match po_amount p with None => false | _ => true end) (t_postings (u_txn u))) (txns 0 (fst (stream E O))) = true) as X by (vm_compute; reflexivity).
  rewrite forallb_forall in X. specialize (X u I). rewrite forallb_forall in X. specialize (X p Ip). rewrite Q in X. discriminate.
Qed.

(** A transaction dated 0001-01-01 is forgotten as the first one. *)
Definition text_one : str :=
  lit "0001-01-01 A" ++ [10] ++ lit "    x    $1" ++ [10] ++ lit "    y    $-1" ++ [10; 10] ++
  lit "2021-03-02 B" ++ [10] ++ lit "    x    $2" ++ [10] ++ lit "    y    $-2" ++ [10].
Theorem C44_dates_refuted : exists E O out t p,
  o_args O = [] /\ o_begin O = [] /\ o_end O = [] /\ o_current O = false /\ stats_cmd E O = Outcome out SOk /\
  In (ETxn t p) (fst (stream E O)) /\ t_date t = Date 1 1 1 /\
  nth_error out 2 = Some (lit "First transaction:" ++ tab ++ lit "2021-03-02 (5 months ago)" ++ [10]).
Proof.
  exists (env0 [(lit "j", text_one)]), (opts3 [] [] false []).
  exists (r_out (stats_cmd (env0 [(lit "j", text_one)]) (opts3 [] [] false []))).
  exists (nth_txn 0 (env0 [(lit "j", text_one)]) (opts3 [] [] false [])), (lit "j").
  split; [reflexivity|]. split; [reflexivity|]. split; [reflexivity|]. split; [reflexivity|].
  split; [vm_compute; reflexivity|]. split; [apply nth_error_In with (n := 0%nat); vm_compute; reflexivity|].
  split; vm_compute; reflexivity.
Qed.

(** ** C56: stats counts what print prints *)
Theorem C56_counts : forall E O fs out1 out2, sane_clock E -> orders E -> sorts E -> filters_for E (o_args O) fs ->
  print_cmd E O = Outcome out1 SOk -> stats_cmd E O = Outcome out2 SOk ->
  match out1 with
  | [] => out2 = lines [lit "No transactions matched arguments."]
  | _ => exists nt rate, canonical nt (Z.of_nat (length out1)) /\
           In (lit "Transactions:" ++ tab ++ tab ++ nt ++ lit " (" ++ rate) out2
  end.
Proof.
  intros E O fs out1 out2 C Or So F P S.
  destruct (C44_stats_partial E O fs out2 C Or F S) as (Rd & sel & Pk & S1 & S2).
  destruct (C42_print E O fs C Or So F) as [K _]. destruct (K Rd) as (sel' & ts & Pk' & Pm & _ & Q).
  rewrite Q in P. injection P as P.
  assert (L : length out1 = length sel).
  { rewrite <- P. unfold lines. rewrite !map_length, (Permutation_length Pm). unfold selected. rewrite map_length.
    rewrite <- (map_length fst sel'), <- (map_length fst sel). f_equal. eapply picks_fun; eauto. }
  destruct out1 as [|o out1].
  - apply S1. destruct sel; [reflexivity|discriminate].
  - destruct S2 as (nf & fl & fd & ld & period & nt & rate & na & np & age & accs & pays & files & Q2 & Cn & _); [intros ->; discriminate|].
    exists nt, rate. rewrite L. split; [exact Cn|]. rewrite Q2. cbn [app]. right. apply in_app_iff. right. cbn [In]. auto.
Qed.

Example C56_example : length (r_out (print_cmd (env0 files3) (opts3 [] [] false []))) = 3%nat /\
  r_status (print_cmd (env0 files3) (opts3 [] [] false [])) = SOk /\ r_status (stats_cmd (env0 files3) (opts3 [] [] false [])) = SOk.
Proof. split; [vm_compute; reflexivity|]. split; vm_compute; reflexivity. Qed.

(** ** C59: bad flags *)

(** In a journal without transactions bad flags go unnoticed, and so they do with
    --current. *)
Theorem C59_flags_refuted : exists E O, o_begin O = lit "rubbish" /\ o_current O = false /\
  (forall n d, ~ flag_means (e_year E n) (o_begin O) d) /\
  print_cmd E O = Outcome [] SOk /\ accounts_cmd E O = Outcome [] SOk.
Proof.
  exists (env0 [(lit "j", lit "; nothing" ++ [10])]), (opts3 (lit "rubbish") [] false []).
  split; [reflexivity|]. split; [reflexivity|]. split; [|split; vm_compute; reflexivity].
  intros n d H. apply smart_spec in H; [discriminate|]. cbn. lia.
Qed.

(** With a transaction to look at, no command ends normally if a flag is not a
    date; those that only read the journal report the error. *)
Definition flags_bad (E : env) (O : opts) : Prop := Exists (fun u => ~ good_flags E O (u_n u)) (txns 0 (fst (stream E O))).

Lemma flags_bad_run : forall E O D fs (k : hstate D -> nat -> transaction -> list posting -> str -> hstate D * status) ph,
  sane_clock E -> orders E -> flags_bad E O -> (forall s n t ps p, h_n (fst (k s n t ps p)) = h_n s) ->
  (forall s pt p, h_n (fst (deliver None ph s (EPer pt p))) = h_n s) ->
  forall s0, h_n s0 = 0%nat -> snd (parse_cmd E O (Some (checked E O fs k)) ph s0) <> SOk.
Proof.
  intros E O D fs k ph C Or B Hk Hp s0 H0 R. destruct (parse_cmd E O (Some (checked E O fs k)) ph s0) as [s r] eqn:Q. cbn in R. subst r.
  apply parse_cmd_ok in Q as [St Q].
  destruct (checked_run E O C Or D fs k ph (fun _ _ => True)) with (evs := fst (stream E O)) (sel := @nil (used * list posting)) (s := s0) (s' := s) as [F _]; auto.
  - intros sel s1 u ps s' _ _ _ _ _ K. split; auto. specialize (Hk s1 (u_n u) (u_txn u) ps (u_path u)). now rewrite K in Hk.
  - intros sel s1 pt p s' _ K. split; auto. specialize (Hp s1 pt p). now rewrite K in Hp.
  - rewrite H0 in F. apply Exists_exists in B as (u & I & B). unfold flags_ok in F. rewrite Forall_forall in F. apply B. now apply F.
Qed.

Lemma bad_finish : forall D (r : hstate D * status) k, snd r <> SOk -> r_status (finish r k) <> SOk.
Proof. intros D [s r] k H. cbn in *. destruct r; try discriminate; cbn; congruence. Qed.

Theorem C59_flags_partial : forall E O fs, sane_clock E -> orders E -> filters_for E (o_args O) fs -> flags_bad E O ->
  r_status (print_cmd E O) <> SOk /\ r_status (accounts_cmd E O) <> SOk /\ r_status (payees_cmd E O) <> SOk /\
  r_status (stats_cmd E O) <> SOk /\ r_status (balance_cmd E O) <> SOk /\ r_status (budget_cmd E O) <> SOk.
Proof.
  intros E O fs C Or F B. apply makeFilters_spec in F.
  assert (NR : ~ readable E O).
  { intros [_ G]. apply Exists_exists in B as (u & I & B). rewrite Forall_forall in G. apply B. now apply G. }
  unfold print_cmd, accounts_cmd, payees_cmd, stats_cmd, balance_cmd, budget_cmd, with_filters. rewrite F.
  split; [|split; [|split; [|split; [|split]]]]; apply bad_finish.
  - apply (flags_bad_run E O); auto.
  - pose proof (run_readable E O (list str) accounts_handler (fun _ _ => True) (HS 0 [] []) C eq_refl Logic.I) as K.
    fold (accounts_run E O) in K. destruct (accounts_run E O) as [s r]. destruct K as [T _]; auto.
    + intros. eexists. split; [reflexivity|]. auto.
    + cbn. intro X. apply NR. now apply T.
  - pose proof (run_readable E O (list str) payees_handler (fun _ _ => True) (HS 0 [] []) C eq_refl Logic.I) as K.
    fold (payees_run E O) in K. destruct (payees_run E O) as [s r]. destruct K as [T _]; auto.
    + intros. eexists. split; [reflexivity|]. auto.
    + cbn. intro X. apply NR. now apply T.
  - apply (flags_bad_run E O); auto. intros s n t ps p. unfold stats_handler. destruct (stats_step (h_data s) t ps p); reflexivity.
  - apply (flags_bad_run E O); auto.
    + intros s n t ps p. unfold balance_handler. destruct (j_addPostings _ ps) as [[j out] r]. reflexivity.
    + intros s pt p. cbn. unfold balance_ph. destruct (j_addPeriodicTransaction (h_data s) pt p) as [[j out] r]. reflexivity.
  - apply (flags_bad_run E O); auto.
    + intros s n t ps p. unfold budget_handler. destruct (b_addPostings _ _ _ ps) as [[j out] r]. reflexivity.
    + intros s pt p. cbn. unfold budget_ph. destruct (pt_run pt) as [ts out]. destruct (is_pnone _); [|reflexivity].
      destruct ts; [reflexivity|]. destruct (b_addPostings _ _ _ _) as [[j out'] r]. reflexivity.
Qed.

(** If it is the first transaction that shows it, print, accounts and payees say so
    and print nothing else. *)
Theorem C59_reported_partial : forall E O fs, sane_clock E -> orders E -> filters_for E (o_args O) fs ->
  txns 0 (fst (stream E O)) <> [] -> ~ good_flags E O 0 ->
  (exists e, print_cmd E O = Outcome [] (SErr e)) /\ (exists e, accounts_cmd E O = Outcome [] (SErr e)) /\
  (exists e, payees_cmd E O = Outcome [] (SErr e)) /\ (exists e, stats_cmd E O = Outcome [] (SErr e)).
Proof.
  intros E O fs C Or F Ne B. apply makeFilters_spec in F.
  unfold print_cmd, accounts_cmd, payees_cmd, stats_cmd, with_filters. rewrite F.
  assert (P : forall D (h : hstate D -> transaction -> str -> hstate D * status) s0, h_n s0 = 0%nat -> h_out s0 = [] ->
    (forall t p, exists s1 e, h s0 t p = (s1, SErr e) /\ h_out s1 = []) ->
    forall k, exists e, finish (parse_cmd E O (Some h) None s0) k = Outcome [] (SErr e)).
  { intros D h s0 N0 O0 Hh k. pose proof (parse_cmd_fold E O _ (Some h) None s0) as K.
    destruct (stream E O) as [evs r]. cbn [fst] in Ne.
    assert (X : exists s1 e, deliver_all (Some h) None s0 evs = (s1, SErr e) /\ h_out s1 = []).
    { clear K. induction evs as [|[t p|pt p] evs IH]; [contradiction| |cbn [deliver_all deliver]; apply IH; exact Ne].
      cbn [deliver_all deliver]. destruct (Hh t p) as (s1 & e & -> & Q). eauto. }
    destruct X as (s1 & e & Dl & Q). rewrite Dl in K. destruct (parse_cmd E O (Some h) None s0) as [s2 r2]. cbn [fst snd] in K.
    destruct K as [-> K]. destruct r2; cbn in K; try discriminate. exists e0. cbn. now rewrite Q. }
  split; [|split; [|split]]; apply P; try reflexivity; intros t p; cbn [h_n].
  - destruct (checked_cases E O C Or _ fs print_handler (HS 0 [] []) t p) as [(G & _)|[(G & _)|(_ & e & ->)]]; try contradiction. eauto.
  - destruct (date_checked_cases E O C _ accounts_handler (HS 0 [] []) t p) as [(G & _)|[(G & _)|(_ & e & ->)]]; try contradiction. eauto.
  - destruct (date_checked_cases E O C _ payees_handler (HS 0 [] []) t p) as [(G & _)|[(G & _)|(_ & e & ->)]]; try contradiction. eauto.
  - destruct (checked_cases E O C Or _ fs stats_handler (HS 0 [] newStats) t p) as [(G & _)|[(G & _)|(_ & e & ->)]]; try contradiction. eauto.
Qed.

Example C59_example : let E := env0 files3 in let O := opts3 (lit "2021-02-30") [] false [] in
  ~ good_flags E O 0 /\ flags_bad E O /\ print_cmd E O = Outcome [] (SErr (EErrorAt (EAt (lit "j") 4 (ETimeParse (lit "2006-01-02") (lit "2021-02-30"))))) /\ balance_cmd E O = Outcome [] (SErr (EErrorAt (EAt (lit "j") 4 (ETimeParse (lit "2006-01-02") (lit "2021-02-30"))))).
Proof.
  intros E O. assert (B : forall n, ~ good_flags E O n).
  { intros n [[H|[H|[d H]]] _]; [discriminate|discriminate|]. apply smart_spec in H; [discriminate|]. cbn. lia. }
  split; [apply B|]. split; [|split; vm_compute; reflexivity]. apply Exists_exists.
  exists (Used 0 (nth_txn 0 E O) (lit "j")). split; [|apply B]. apply nth_error_In with (n := 0%nat). vm_compute. reflexivity.
Qed.
