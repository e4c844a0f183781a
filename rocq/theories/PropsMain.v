(** * Properties of the whole program: C77-C81, and the messages of C21 *)
From Verif Require Import Base BaseFacts Utf8 Unicode GoTime Strconv Display Journal Lexer Parser ParserFacts Account
  Reporting Budget Cmd Spec TextSpec DateFacts AmountFacts CmdSpec CmdFacts FlatSpec InputFacts Sample BudgetSpec PropsCmd PropsStats PropsBalance PropsBudget Main MainSpec MainFacts.

(** ** C79: flags and words mean the same wherever they are put *)
Section Program.
Variable E : env.
Variable L : err -> str.
Variable help_text : list str -> str.
Variable library : list str -> result.
Notation gledger := (gledger E L help_text library).

(** What each command does with its options. *)
Definition does (c : command) (O : opts) : outcome :=
  match c with
  | Accounts => accounts_cmd E O | Balance => balance_cmd E O | Budget_ => budget_cmd E O
  | Payees => payees_cmd E O | Print => print_cmd E O | Statistics => stats_cmd E O
  | Version => with_filters E O (fun _ => Outcome [lit "gledger v0.1" ++ [10]] SOk)
  end.

Theorem C79_flags_partial : forall argv c O help, asks argv c O help ->
  (help = false -> gledger argv = result_of L (does c O)) /\
  (help = true -> exists args, gledger argv = Result (help_text args) (Some 0)).
Proof.
  intros argv c O help (pre & its1 & name & post & its2 & -> & Cl & Ld & N & Ln & Me).
  destruct (called_found c name Cl) as [Fn Sn].
  assert (G : gledger (pre ++ name :: post) = execute E L help_text c (pre ++ post)).
  { unfold Main.gledger. rewrite (leading_strip _ _ Ld) by discriminate. rewrite Sn, Fn, minus_first_app by exact N. reflexivity. }
  rewrite G. unfold execute.
  assert (Al : forall f, for_all f -> allowed c f) by (intros f F; left; exact F).
  destruct (line_parse (cmd_flags c) (allowed c) _ _ (leading_line _ _ _ _ _ Al Ld Ln) (allowed_in c) [] fs_init holds_init) as (st & P & H).
  rewrite P. cbn [app] in H. destruct (meant_fun _ _ _ _ _ H Me) as [Ho Hh]. rewrite Hh, Ho. split; intros ->; [destruct c; reflexivity|eauto].
Qed.

(** False without the condition that the name of the command does not occur
    before it: the first argument equal to it is taken out, even if it is the
    value of a flag.  Here the journal is called "print", and "-b" becomes the
    name of the journal. *)
Theorem C79_flags_refuted : exists argv pre its1 name post its2 O,
  argv = pre ++ name :: post /\ called Print name /\ leading its1 pre /\ line (allowed Print) its2 post /\
  meant (its1 ++ its2) O false /\ o_file O = lit "print" /\ o_args O = [] /\
  gledger argv = result_of L (does Print (Opts (lit "-b") [] [] false [lit "2020"; lit "print"] false false false)).
Proof.
  exists [lit "-f"; lit "print"; lit "-b"; lit "2020"; lit "print"].
  exists ([lit "-f"; lit "print"] ++ [lit "-b"; lit "2020"] ++ []), [Given FFile (lit "print"); Given FBegin (lit "2020")].
  exists (lit "print"), [], [], (Opts (lit "print") (lit "2020") [] false [] false false false).
  split; [reflexivity|]. split; [left; reflexivity|]. split.
  { constructor; [left; reflexivity|left; do 2 eexists; apply DocFile|apply (ShortNext FFile (lit "file") (ch "f")); apply DocFile|].
    constructor; [right; left; reflexivity|left; do 2 eexists; apply DocBegin|apply (ShortNext FBegin (lit "begin") (ch "b")); apply DocBegin|].
    constructor. }
  split; [apply LinePlain; constructor|]. split; [constructor; reflexivity|]. split; [reflexivity|]. split; reflexivity.
Qed.

(** Exactly: the command is always found, and is given all arguments but the first
    that equals its name, as if it had been called by that one. *)
Theorem C79_first_taken : forall c name pre its p1 p2 post, called c name -> leading its pre -> pre = p1 ++ name :: p2 -> ~ In name p1 ->
  gledger (pre ++ name :: post) = gledger (name :: p1 ++ p2 ++ name :: post).
Proof.
  intros c name pre its p1 p2 post C Ld Q N. destruct (called_found c name C) as [Fn Sn].
  unfold Main.gledger. rewrite (leading_strip _ _ Ld) by discriminate. rewrite !Sn, Fn.
  cbn [minus_first]. rewrite str_eqb_refl. rewrite Q, <- app_assoc. cbn [app]. now rewrite minus_first_app by exact N.
Qed.
Example C79_taken_example : called Print (lit "print") /\
  leading [Given FFile (lit "print")] ([lit "-f"; lit "print"] ++ []) /\ [lit "-f"; lit "print"] = [lit "-f"] ++ lit "print" :: [] /\ ~ In (lit "print") [lit "-f"].
Proof.
  split; [left; reflexivity|]. split; [|split; [reflexivity|cbn; intuition discriminate]].
  constructor; [left; reflexivity|left; do 2 eexists; apply DocFile|apply (ShortNext FFile (lit "file") (ch "f")); apply DocFile|constructor].
Qed.

(** ** C78: every name of a command stands for it *)

(** False: "p" is a name of both payees and print, and means payees. *)
Theorem C78_alias_refuted : In (lit "p") (aliases Print) /\
  forall args, gledger (lit "p" :: args) = execute E L help_text Payees args.
Proof. split; [left; reflexivity|]. intro args. reflexivity. Qed.

(** True of all others. *)
Theorem C78_alias_partial : forall c a pre its post, In a (aliases c) -> ~ (c = Print /\ a = lit "p") -> leading its pre ->
  ~ In a pre -> ~ In (full_name c) pre -> gledger (pre ++ a :: post) = gledger (pre ++ full_name c :: post).
Proof.
  intros c a pre its post I N Ld Na Nf.
  assert (C1 : called c a).
  { right. split; [exact I|]. intros ->. cbn in I. destruct I as [<-|[]]. apply N. auto. }
  assert (C2 : called c (full_name c)) by (left; reflexivity).
  destruct (called_found c a C1) as [F1 S1], (called_found c _ C2) as [F2 S2].
  unfold Main.gledger. rewrite !(leading_strip _ _ Ld) by discriminate. rewrite S1, S2, F1, F2, !minus_first_app by assumption. reflexivity.
Qed.

(** ** C80: a command line that cannot be understood is refused

    Whatever the environment, with exit status 1 and nothing on standard output. *)
Theorem C80_refused : forall c pre its1 name its2 post rest, called c name -> leading its1 pre -> ~ In name pre ->
  open_line (allowed c) its2 post -> bad (allowed c) rest ->
  gledger (pre ++ name :: post ++ rest) = Result [] (Some 1).
Proof.
  intros c pre its1 name its2 post rest Cl Ld N Ln B. destruct (called_found c name Cl) as [Fn Sn].
  unfold Main.gledger. rewrite (leading_strip _ _ Ld) by discriminate. rewrite Sn, Fn, minus_first_app by exact N.
  unfold execute. assert (Al : forall f, for_all f -> allowed c f) by (intros f F; left; exact F).
  destruct (open_parse (cmd_flags c) (allowed c) _ _ (leading_open _ _ _ _ _ Al Ld Ln) (allowed_in c) [] fs_init holds_init) as (st & _ & P).
  rewrite app_assoc, P, (bad_parse _ _ _ (allowed_iff c) B). reflexivity.
Qed.

Theorem C80_unknown : forall pre its w post, leading its pre -> w <> [] -> hd 0 w <> ch "-" ->
  (forall c, w <> full_name c /\ ~ In w (aliases c)) -> ~ In w cobra_names ->
  gledger (pre ++ w :: post) = Result [] (Some 1).
Proof.
  intros pre its w post Ld Ne Hd Un Co. unfold Main.gledger. rewrite (leading_strip _ _ Ld) by discriminate.
  destruct w as [|x w]; [congruence|]. cbn [hd] in Hd. apply Z.eqb_neq in Hd. change (ch "-") with 45 in Hd.
  assert (T : has_prefix (lit "-") (x :: w) = false).
  { change (lit "-") with [45]. cbn [has_prefix]. rewrite Z.eqb_sym, Hd. reflexivity. }
  assert (T2 : has_prefix (lit "--") (x :: w) = false).
  { change (lit "--") with [45; 45]. cbn [has_prefix]. rewrite Z.eqb_sym, Hd. reflexivity. }
  assert (T3 : str_eqb (x :: w) (lit "--") = false).
  { change (lit "--") with [45; 45]. cbn [str_eqb]. rewrite Hd. reflexivity. }
  assert (Tn : takes_next (x :: w) = false) by (unfold takes_next; rewrite T, T2; reflexivity).
  cbn [strip_flags]. rewrite T3, Tn, T. cbn [is_nil negb andb].
  assert (F : find_next (x :: w) = None).
  { unfold find_next. destruct (find _ commands) as [c|] eqn:Q.
    - apply find_some in Q as [_ Q]. apply mem_in in Q. exfalso. destruct (Un c) as [U1 U2].
      destruct c; cbn [cmd_names In full_name aliases] in *; intuition congruence.
    - destruct (mem (x :: w) library_names) eqn:M; [|reflexivity]. apply mem_in in M. contradiction. }
  rewrite F. reflexivity.
Qed.

(** Nor is it understood without a command, when only flags follow. *)
Lemma only_dashes : forall l, Forall (fun s => s = [] \/ hd 0 s = ch "-") l -> strip_flags l = [].
Proof.
  intro l. assert (H : forall n l, (length l <= n)%nat -> Forall (fun s => s = [] \/ hd 0 s = ch "-") l -> strip_flags l = []).
  { clear. induction n as [|n IH]; intros l L F; [destruct l; [reflexivity|cbn in L; lia]|]. destruct F as [|s l Hs F]; [reflexivity|].
    cbn [length] in L. cbn [strip_flags]. destruct (str_eqb s (lit "--")); [reflexivity|]. destruct (takes_next s).
    - destruct F as [|s2 l Hs2 F]; [reflexivity|]. destruct l as [|s3 l]; [reflexivity|]. apply IH; [cbn [length] in *; lia|exact F].
    - assert (Q : negb (is_nil s) && negb (has_prefix (lit "-") s) = false).
      { destruct Hs as [->|Hs]; [reflexivity|]. destruct s as [|x s]; [reflexivity|]. cbn [hd] in Hs. subst x. reflexivity. }
      rewrite Q. apply IH; [lia|exact F]. }
  apply (H (length l)). lia.
Qed.

Theorem C80_alone : forall pre its rest, leading its pre -> bad (fun f => for_all f \/ f = FHelp) rest ->
  Forall (fun s => s = [] \/ hd 0 s = ch "-") rest -> gledger (pre ++ rest) = Result [] (Some 1).
Proof.
  intros pre its rest Ld B F. assert (Ne : rest <> []) by (destruct B; discriminate).
  unfold Main.gledger. rewrite (leading_strip _ _ Ld _ Ne), (only_dashes _ F). unfold execute_root.
  assert (Ok : forall f, for_all f \/ f = FHelp <-> In f root_flags).
  { intro f. unfold for_all. cbn. split; [intros [[->|[->|[->| ->]]]| ->]; tauto|]. intuition subst; auto. }
  pose proof (leading_open (fun f => for_all f \/ f = FHelp) its pre [] [] (fun f F => or_introl F) Ld (LineEnd _)) as Ln. rewrite !app_nil_r in Ln.
  destruct (open_parse root_flags _ _ _ Ln (fun f H => proj1 (Ok f) H) [] fs_init holds_init) as (st & _ & P).
  rewrite P, (bad_parse root_flags _ _ Ok B). reflexivity.
Qed.

(** ** C81: without a command the help is shown

    No journal is read. *)
Theorem C81_help : forall its argv, leading its argv -> gledger argv = Result (help_text argv) (Some 0).
Proof.
  intros its argv Ld. unfold Main.gledger. rewrite (leading_nothing _ _ Ld). unfold execute_root.
  assert (Ok : forall f, for_all f -> In f root_flags) by (unfold for_all; intros f [->|[->|[->| ->]]]; cbn; tauto).
  pose proof (leading_open for_all its argv [] [] (fun f F => F) Ld (LineEnd _)) as Ln. rewrite !app_nil_r in Ln.
  destruct (line_parse root_flags for_all its argv (LinePlain _ _ _ Ln) Ok [] fs_init holds_init) as (st & P & H). rewrite P.
  cbn [app] in H. assert (X : last_given FHelp its = None /\ words its = []).
  { clear -Ld. unfold last_given. induction Ld as [|f v l its rest A Se Sp Ld [IH1 IH2]]; [split; reflexivity|].
    split; [|exact IH2]. destruct A as [->|[->|[->| ->]]]; exact IH1. }
  destruct X as [X1 X2]. destruct H as [_ _ _ _ _ _ _ Hh Ha]. unfold switch in Hh. rewrite X1 in Hh. rewrite X2 in Ha. rewrite Hh.
  unfold with_filters. rewrite Ha, makeFilters_nil. unfold result_of. cbn [r_status r_out concat app]. now rewrite app_nil_r.
Qed.

(** ** C77: the exit status tells whether the command succeeded *)

(** What is on standard output and the exit status when reading the journal ends
    with [st]. *)
Definition ends_as (st : status) (r : result) : Prop :=
  match st with
  | SOk => p_exit r = Some 0
  | SErr e => p_exit r = Some 0 /\ exists before, p_out r = before ++ err_text L e ++ [10]
  | SPanic => p_exit r = Some 2
  | SFatal => p_exit r = Some 1
  | SDeep => p_exit r = None
  end.

Lemma finish_ends : forall D (r : hstate D * status) k,
  (forall n d, snd (k n d) = SOk \/ exists src, snd (k n d) = SErr (ERegexp src)) ->
  (forall e, snd r = SErr e -> forall e', e <> EUsage e') -> ends_as (snd r) (result_of L (finish r k)).
Proof.
  intros D [s st] k K U. cbn [snd] in *. unfold finish. destruct st as [|e| | |]; cbn [ends_as]; try reflexivity.
  - specialize (K (h_n s) (h_data s)). destruct (k (h_n s) (h_data s)) as [out st']. cbn [snd] in K.
    destruct K as [->|[src ->]]; reflexivity.
  - unfold result_of. cbn [r_status r_out]. specialize (U e eq_refl).
    destruct e; try (split; [reflexivity|eexists; reflexivity]). now destruct (U e).
Qed.

Lemma finish_quiet : forall D (s : hstate D) st k e, st = SErr e -> (forall e', e <> EUsage e') -> h_out s = [] ->
  p_out (result_of L (finish (s, st) k)) = err_text L e ++ [10].
Proof.
  intros D s st k e -> U H. unfold finish, result_of. cbn [r_status r_out]. rewrite H. cbn [concat app].
  destruct e; try reflexivity. now destruct (U e).
Qed.

(** Every command that reads the journal, with good filters and dates: unless
    the command panics, the exit status is 0 both when all is well and when the
    journal cannot be read, a message then being the last thing on standard
    output; only a line that is too long gives status 1. *)
Theorem C77_exit_partial : forall argv c O fs, asks argv c O false -> c <> Version ->
  sane_clock E -> orders E -> filters_for E (o_args O) fs -> flags_ok E O (txns 0 (fst (stream E O))) ->
  ends_as (snd (stream E O)) (gledger argv) \/ p_exit (gledger argv) = Some 2.
Proof.
  intros argv c O fs As V C Or Fs Fl. destruct (C79_flags_partial _ _ _ _ As) as [G _]. rewrite (G eq_refl). clear G As.
  apply makeFilters_spec in Fs. pose proof (stream_error E O) as U.
  assert (K : forall D (r : hstate D * status) k, (forall n d, snd (k n d) = SOk \/ exists src, snd (k n d) = SErr (ERegexp src)) ->
    snd r = snd (stream E O) \/ snd r = SPanic ->
    ends_as (snd (stream E O)) (result_of L (finish r k)) \/ p_exit (result_of L (finish r k)) = Some 2).
  { intros D r k Hk [H|H].
    - left. rewrite <- H. apply finish_ends; [exact Hk|]. rewrite H. exact U.
    - right. destruct r as [s st]. cbn [snd] in H. subst st. reflexivity. }
  destruct c; try congruence; cbn [does]; unfold accounts_cmd, balance_cmd, budget_cmd, payees_cmd, print_cmd, stats_cmd, with_filters; rewrite Fs; apply K; try (intros; left; reflexivity).
  - left. destruct (accounts_sure E O C Fl) as (s & -> & _). reflexivity.
  - apply balance_calm; assumption.
  - apply budget_calm; assumption.
  - intros n d. destruct (payees_prepare E (o_args O) (e_order E n str d)) as [l|e] eqn:P; [left; reflexivity|right].
    unfold payees_prepare in P. destruct (o_args O); [discriminate|]. destruct (find _ _) as [src|]; [|discriminate]. injection P as <-. exists src. reflexivity.
  - left. destruct (payees_sure E O C Fl) as (s & -> & _). reflexivity.
  - left. destruct (print_sure E O C Or fs Fl) as (s & -> & _). reflexivity.
  - apply stats_calm; assumption.
Qed.

(** print, accounts and payees never panic of their own, and print nothing before
    the message. *)
Theorem C77_listing_partial : forall argv c O fs, asks argv c O false -> c = Print \/ c = Accounts \/ c = Payees ->
  sane_clock E -> orders E -> filters_for E (o_args O) fs -> flags_ok E O (txns 0 (fst (stream E O))) ->
  ends_as (snd (stream E O)) (gledger argv) /\
  forall e, snd (stream E O) = SErr e -> p_out (gledger argv) = err_text L e ++ [10].
Proof.
  intros argv c O fs As V C Or Fs Fl. destruct (C79_flags_partial _ _ _ _ As) as [G _]. rewrite (G eq_refl). clear G As.
  apply makeFilters_spec in Fs. pose proof (stream_error E O) as U.
  destruct V as [->|[->| ->]]; cbn [does]; unfold accounts_cmd, payees_cmd, print_cmd, with_filters; rewrite Fs.
  - destruct (print_sure E O C Or fs Fl) as (s & -> & H). split.
    + apply (finish_ends _ (s, snd (stream E O))); [intros; left; reflexivity|exact U].
    + intros e He. apply finish_quiet; [exact He|exact (U e He)|exact H].
  - destruct (accounts_sure E O C Fl) as (s & -> & H). split.
    + apply (finish_ends _ (s, snd (stream E O))); [intros; left; reflexivity|exact U].
    + intros e He. apply finish_quiet; [exact He|exact (U e He)|exact H].
  - destruct (payees_sure E O C Fl) as (s & -> & H). split.
    + apply (finish_ends _ (s, snd (stream E O))); [|exact U].
      intros n d. destruct (payees_prepare E (o_args O) (e_order E n str d)) as [l|e] eqn:P; [left; reflexivity|right].
      unfold payees_prepare in P. destruct (o_args O); [discriminate|]. destruct (find _ _) as [src|]; [|discriminate]. injection P as <-. exists src. reflexivity.
    + intros e He. apply finish_quiet; [exact He|exact (U e He)|exact H].
Qed.

(** balance, budget and stats on a journal that can be read: exit status 0
    exactly when every posting the report looks at is one it can deal with,
    otherwise a panic and status 2. *)
Theorem C77_reports_partial : forall argv c O fs, asks argv c O false -> c = Balance \/ c = Budget_ \/ c = Statistics ->
  sane_clock E -> orders E -> filters_for E (o_args O) fs -> readable E O ->
  (p_exit (gledger argv) = Some 0 \/ p_exit (gledger argv) = Some 2) /\
  (p_exit (gledger argv) = Some 0 <->
     (c = Balance -> exists sel, picks E O fs (txns 0 (fst (stream E O))) sel /\ Forall priced (taken sel)) /\
     (c = Budget_ -> exists log, history E O fs 0 (fst (stream E O)) log /\ Forall proper log) /\
     (c = Statistics -> exists sel, picks E O fs (txns 0 (fst (stream E O))) sel /\ no_income_without_amount (taken sel))).
Proof.
  intros argv c O fs As V C Or Fs Rd. destruct (C79_flags_partial _ _ _ _ As) as [G _]. rewrite (G eq_refl). clear G As.
  pose proof Rd as [So Fl].
  assert (K : forall D (r : hstate D * status) k, (forall n d, snd (k n d) = SOk) -> snd r = snd (stream E O) \/ snd r = SPanic ->
    (p_exit (result_of L (finish r k)) = Some 0 \/ p_exit (result_of L (finish r k)) = Some 2) /\
    (p_exit (result_of L (finish r k)) = Some 0 <-> r_status (finish r k) = SOk)).
  { intros D [s st] k Hk H. cbn [snd] in H. rewrite So in H. unfold finish, result_of. destruct H as [->| ->]; cbn.
    - specialize (Hk (h_n s) (h_data s)). destruct (k (h_n s) (h_data s)) as [out st']. cbn [snd] in Hk. subst st'. cbn. intuition.
    - split; [auto|]. split; discriminate. }
  assert (M : makeFilters E (o_args O) = POk fs) by (now apply makeFilters_spec).
  destruct V as [->|[->| ->]]; cbn [does].
  - assert (X := K _ (balance_run E O fs) (fun _ j => (report O (prepareBalance E O (j_root j)), SOk)) (fun _ _ => eq_refl) ltac:(apply balance_calm; assumption)).
    assert (B := proj1 (C61_balance E O fs C Or Fs)). unfold balance_cmd, with_filters in *. rewrite M in *.
    destruct X as [X Y]. split; [exact X|]. rewrite Y, B. split.
    + intros [_ H]. split; [intros _; exact H|]. split; discriminate.
    + intros [H _]. split; [exact Rd|]. now apply H.
  - assert (X := K _ (budget_run E O fs) (fun _ b => (budget_report b (sort_dates (map fst b)), SOk)) (fun _ _ => eq_refl) ltac:(apply budget_calm; assumption)).
    assert (B := proj1 (C48_report E O fs C Or Fs)). unfold budget_cmd, with_filters in *. rewrite M in *.
    destruct X as [X Y]. split; [exact X|]. rewrite Y, B. split.
    + intros [_ H]. split; [discriminate|]. split; [intros _; exact H|discriminate].
    + intros (_ & H & _). split; [exact Rd|]. now apply H.
  - assert (X := K _ (stats_run E O fs) (fun n s => (stats_report E n s, SOk)) (fun _ _ => eq_refl) ltac:(apply stats_calm; assumption)).
    assert (B := C44_completes E O fs C Or Fs). unfold stats_cmd, with_filters in *. rewrite M in *.
    destruct X as [X Y]. split; [exact X|]. rewrite Y, B. split.
    + intros [_ H]. split; [discriminate|]. split; [discriminate|]. intros _; exact H.
    + intros (_ & _ & H). split; [exact Rd|]. now apply H.
Qed.

(** Filters that cannot be made are refused before the journal is opened. *)
Theorem C77_filters_partial : forall argv c O, asks argv c O false -> (forall fs, ~ filters_for E (o_args O) fs) ->
  p_out (gledger argv) = [] /\ (p_exit (gledger argv) = Some 1 \/ p_exit (gledger argv) = Some 2).
Proof.
  intros argv c O As N. destruct (C79_flags_partial _ _ _ _ As) as [G _]. rewrite (G eq_refl). clear G As.
  assert (K : forall k, r_out (with_filters E O k) = [] /\ (r_status (with_filters E O k) = SPanic \/ exists e, r_status (with_filters E O k) = SErr (EUsage e))).
  { intro k. unfold with_filters. destruct (makeFilters E (o_args O)) as [fs|e|] eqn:M; cbn; eauto. apply makeFilters_spec in M. destruct (N _ M). }
  assert (R : forall k, p_out (result_of L (with_filters E O k)) = [] /\ (p_exit (result_of L (with_filters E O k)) = Some 1 \/ p_exit (result_of L (with_filters E O k)) = Some 2)).
  { intro k. destruct (K k) as [Ho [Hs|[e Hs]]]; unfold result_of; rewrite Ho, Hs; cbn; auto. }
  destruct c; apply R.
Qed.

(** ** C21: the message

    The message on standard output begins with the file and the number of the
    line where reading stopped; or it is one of three, for what is found at the
    end of the journal: an open transaction that cannot be closed, or a failure
    to read on. *)
Theorem C21_message_partial : forall argv c O fs path f e, asks argv c O false -> c = Print \/ c = Accounts \/ c = Payees ->
  sane_clock E -> orders E -> filters_for E (o_args O) fs -> flags_ok E O (txns 0 (fst (stream E O))) ->
  journal_path E O = Some path -> e_fs E path = Some f ->
  snd (trace (e_unicode E) (e_fs E) (e_depth E) path f) = SErr e ->
  (exists k l digits more, nth_error (file_lines (f_bytes f)) k = Some (Line l) /\ canonical digits (Z.of_nat k + 1) /\
    p_out (gledger argv) = lit "error at " ++ path ++ lit ":" ++ digits ++ [10] ++ more) \/
  (f_bad f = false /\ (p_out (gledger argv) = lit "error at transaction does not balance" ++ [10] \/
                       p_out (gledger argv) = lit "error at cannot have more than one posting with an elided amount" ++ [10])) \/
  (f_bad f = true /\ p_out (gledger argv) = lit "error at " ++ L (ERead path) ++ [10]).
Proof.
  intros argv c O fs path f e As V C Or Fs Fl Jp Ef T.
  assert (S : snd (stream E O) = SErr e) by (unfold stream; rewrite Jp, Ef; exact T).
  destruct (C77_listing_partial argv c O fs As V C Or Fs Fl) as [_ P]. rewrite (P _ S).
  apply trace_located in T as (e' & -> & Lo).
  assert (Itoa : forall k, canonical (itoa (Z.of_nat k + 1)) (Z.of_nat k + 1)).
  { intro k. unfold itoa. destruct (Z.of_nat k + 1 <? 0) eqn:Q; [apply Z.ltb_lt in Q; lia|]. apply canonical_itoa. lia. }
  assert (K : forall k l e1, nth_error (file_lines (f_bytes f)) k = Some (Line l) -> exists k0 l0 digits more,
    nth_error (file_lines (f_bytes f)) k0 = Some (Line l0) /\ canonical digits (Z.of_nat k0 + 1) /\
    err_text L (EErrorAt (EAt path (Z.of_nat k + 1) e1)) ++ [10] = lit "error at " ++ path ++ lit ":" ++ digits ++ [10] ++ more).
  { intros k l e1 Nt. exists k, l, (itoa (Z.of_nat k + 1)). eexists. split; [exact Nt|]. split; [apply Itoa|].
    cbn [err_text]. rewrite <- !app_assoc. reflexivity. }
  inversion Lo; subst.
  - left. eapply K; eassumption.
  - left. eapply K; eassumption.
  - left. eapply K; eassumption.
  - right. left. split; [assumption|]. match goal with H : snd (close_open _) = _ |- _ => apply close_error in H as [->| ->] end; [right|left]; reflexivity.
  - right. right. split; [assumption|reflexivity].
Qed.
End Program.

(** ** Examples *)
Definition L0 (e : err) : str :=
  match e with
  | ETimeParse layout value => lit "no " ++ layout ++ lit ": " ++ value
  | EParseInt s | EAtoi s => lit "no integer: " ++ s
  | EOpen p | ERead p => lit "no file: " ++ p
  | ERegexp src => lit "no expression: " ++ src
  | _ => lit "some error"
  end.
Definition help0 (args : list str) : str := lit "usage".
Definition lib0 (args : list str) : result := Result [] None.

Definition journal0 : list (str * str) := [(lit "j", lit
"2020-01-02 Shop
  A    $2
  B    $-2
")].
Definition broken0 : list (str * str) := [(lit "j", lit
"2020-01-02 Shop
  A    $2
  B    $-2

2020-01-03 Shop
  A    $2
  B    $-2x
")].
Definition uneven0 : list (str * str) := [(lit "j", lit
"2020-01-02 Shop
  A    $2
  B    $-1
")].
(** -fj --current=false bal -FZ -e 2021 A *)
Definition argv0 : list str := [lit "-fj"; lit "--current=false"; lit "bal"; lit "-FZ"; lit "-e"; lit "2021"; lit "A"].
Definition asked0 : opts := Opts (lit "j") [] (lit "2021") false [lit "A"] true false true.

Lemma asks0 : asks argv0 Balance asked0 false.
Proof.
  exists ([lit "-fj"] ++ [lit "--current=false"] ++ []), [Given FFile (lit "j"); Given FCurrent (lit "false")], (lit "bal").
  exists ([lit "-FZ"] ++ [lit "-e"; lit "2021"] ++ [lit "A"] ++ []), (map on [FFlatten; FShowZero] ++ [Given FEnd (lit "2021"); Word (lit "A")]).
  split; [reflexivity|]. split; [right; split; [left; reflexivity|discriminate]|]. split.
  { constructor; [left; reflexivity|left; do 2 eexists; apply DocFile|apply (ShortJoined FFile (lit "file") (ch "f") (ch "j") []); [apply DocFile|discriminate]|].
    constructor; [unfold for_all; tauto|right; exists false; cbn; tauto|apply (LongEquals FCurrent (lit "current") (ch "c") false); apply DocCurrent|].
    constructor. }
  split; [cbn; intuition discriminate|]. split; [|constructor; try reflexivity; cbn; tauto].
  apply LinePlain. apply (LineGroup _ [FFlatten; FShowZero] (lit "FZ")); [discriminate| | |].
  - repeat constructor; unfold allowed; tauto.
  - repeat constructor; eexists; [apply DocFlatten|apply DocShowZero].
  - constructor; [left; unfold for_all; tauto|left; do 2 eexists; apply DocEnd|apply (ShortNext FEnd (lit "end") (ch "e")); apply DocEnd|].
    constructor; [right; right; split; discriminate|]. constructor.
Qed.

Example C79_example : asks argv0 Balance asked0 false /\
  gledger (env1 journal0) L0 help0 lib0 argv0 = Result (lit
"               $2.00  A
--------------------
                2.00
") (Some 0).
Proof. split; [exact asks0|]. vm_compute. reflexivity. Qed.

(** Asking for print with the journal "j". *)
Lemma asks_print : asks [lit "-f"; lit "j"; lit "print"] Print (opts0 "j") false.
Proof.
  exists ([lit "-f"; lit "j"] ++ []), [Given FFile (lit "j")], (lit "print"), [], [].
  split; [reflexivity|]. split; [left; reflexivity|]. split.
  { constructor; [left; reflexivity|left; do 2 eexists; apply DocFile|apply (ShortNext FFile (lit "file") (ch "f")); apply DocFile|constructor]. }
  split; [cbn; intuition discriminate|]. split; [apply LinePlain; constructor|constructor; reflexivity].
Qed.

(** False: a transaction does not balance, print says so and exits with 0. *)
Theorem C77_exit_refuted :
  snd (stream (env0 uneven0) (opts0 "j")) = SErr (EErrorAt EUnbalanced) /\
  asks [lit "-f"; lit "j"; lit "print"] Print (opts0 "j") false /\
  gledger (env0 uneven0) L0 help0 lib0 [lit "-f"; lit "j"; lit "print"] =
  Result (lit "error at transaction does not balance
") (Some 0).
Proof. split; [vm_compute; reflexivity|]. split; [exact asks_print|]. vm_compute. reflexivity. Qed.

Lemma flags_free : forall E (files : list (str * str)) us, flags_ok E (opts0 "j") us.
Proof. intros E files us. apply Forall_forall. intros u _. split; left; reflexivity. Qed.

Example C77_exit_example : asks [lit "-f"; lit "j"; lit "print"] Print (opts0 "j") false /\
  sane_clock (env0 broken0) /\ orders (env0 broken0) /\ filters_for (env0 broken0) [] [] /\
  flags_ok (env0 broken0) (opts0 "j") (txns 0 (fst (stream (env0 broken0) (opts0 "j")))) /\
  journal_path (env0 broken0) (opts0 "j") = Some (lit "j") /\
  gledger (env0 broken0) L0 help0 lib0 [lit "-f"; lit "j"; lit "print"] =
  Result (lit "error at j:7
error parsing amount: no integer: 2x
") (Some 0).
Proof.
  split; [exact asks_print|]. split; [apply env0_clock|]. split; [apply env0_orders|]. split; [apply makeFilters_spec; reflexivity|].
  split; [apply (flags_free (env0 broken0) [])|]. split; [reflexivity|]. vm_compute. reflexivity.
Qed.

(** A balanced transaction with a posting left without an amount: the three
    reports panic. *)
Definition blank0 : list (str * str) := [(lit "j", lit
"2020-01-02 Shop
  A    $2
  B    $-2
  Income:x
")].
Example C77_reports_example :
  (forall c name, In (c, name) [(Balance, lit "balance"); (Budget_, lit "budget"); (Statistics, lit "statistics")] ->
     asks [lit "-f"; lit "j"; name] c (opts0 "j") false) /\
  sane_clock (env0 blank0) /\ orders (env0 blank0) /\ filters_for (env0 blank0) [] [] /\
  readable (env0 blank0) (opts0 "j") /\ readable (env0 journal0) (opts0 "j") /\
  map (fun c => p_exit (gledger (env0 blank0) L0 help0 lib0 [lit "-f"; lit "j"; c])) [lit "balance"; lit "budget"; lit "statistics"; lit "print"] =
    [Some 2; Some 2; Some 2; Some 0] /\
  map (fun c => p_exit (gledger (env0 journal0) L0 help0 lib0 [lit "-f"; lit "j"; c])) [lit "balance"; lit "budget"; lit "statistics"; lit "print"] =
    [Some 0; Some 0; Some 0; Some 0].
Proof.
  split; [|split; [apply env0_clock|split; [apply env0_orders|split; [apply makeFilters_spec; reflexivity|]]]].
  - intros c name H. exists ([lit "-f"; lit "j"] ++ []), [Given FFile (lit "j")], name, [], [].
    split; [reflexivity|]. split; [cbn in H; destruct H as [H|[H|[H|[]]]]; inversion H; left; reflexivity|]. split.
    { constructor; [left; reflexivity|left; do 2 eexists; apply DocFile|apply (ShortNext FFile (lit "file") (ch "f")); apply DocFile|constructor]. }
    split; [|split; [apply LinePlain; constructor|constructor; reflexivity]].
    cbn in H; destruct H as [H|[H|[H|[]]]]; inversion H; cbn; intuition discriminate.
  - split; [split; [vm_compute; reflexivity|apply (flags_free (env0 blank0) [])]|].
    split; [split; [vm_compute; reflexivity|apply (flags_free (env0 journal0) [])]|].
    split; vm_compute; reflexivity.
Qed.

(** A filter that is empty makes the program panic. *)
Example C77_filters_example : asks [lit "print"; []] Print (Opts [] [] [] false [[]] false false false) false /\
  (forall fs, ~ filters_for (env0 []) [[]] fs) /\
  gledger (env0 []) L0 help0 lib0 [lit "print"; []] = Result [] (Some 2).
Proof.
  split; [|split; [|vm_compute; reflexivity]].
  - exists [], [], (lit "print"), [[]], [Word []]. split; [reflexivity|]. split; [left; reflexivity|]. split; [constructor|].
    split; [intros []|]. split; [|constructor; reflexivity]. apply LinePlain. constructor; [left; reflexivity|constructor].
  - intros fs F. apply makeFilters_spec in F. vm_compute in F. discriminate.
Qed.

Example C78_example : gledger (env0 journal0) L0 help0 lib0 [lit "-fj"; lit "s"] =
                      gledger (env0 journal0) L0 help0 lib0 [lit "-fj"; lit "statistics"] /\
  p_exit (gledger (env0 journal0) L0 help0 lib0 [lit "-fj"; lit "s"]) = Some 0.
Proof.
  split; [|vm_compute; reflexivity].
  apply (C78_alias_partial _ _ _ _ Statistics (lit "s") [lit "-fj"] [Given FFile (lit "j")] []).
  - right. left. reflexivity.
  - intros [X _]. discriminate X.
  - apply (LeadFlag FFile (lit "j") [lit "-fj"]); [left; reflexivity|left; do 2 eexists; apply DocFile|apply (ShortJoined FFile (lit "file") (ch "f") (ch "j") []); [apply DocFile|discriminate]|constructor].
  - cbn. intuition discriminate.
  - cbn. intuition discriminate.
Qed.

(** bal -x; bal --file; print --flatten; bal --collapse=maybe *)
Example C80_example :
  bad (allowed Balance) [lit "-x"] /\ bad (allowed Balance) [lit "--file"] /\
  bad (allowed Print) [lit "--flatten"; lit "more"] /\ bad (allowed Balance) [lit "--collapse=maybe"] /\
  map (gledger (env0 journal0) L0 help0 lib0) [[lit "bal"; lit "-x"]; [lit "bal"; lit "-F"; lit "--file"]; [lit "print"; lit "--flatten"]; [lit "bale"]] =
  repeat (Result [] (Some 1)) 4.
Proof.
  split; [|split; [|split; [|split]]].
  - apply (BadLetter _ [] [] (ch "x") [] []); try constructor; try discriminate. intros f w b D. inversion D.
  - apply (BadMissing _ FFile (lit "file") (ch "f")); [left; left; reflexivity|constructor].
  - apply (BadLong _ (lit "flatten") [] [lit "more"]); [discriminate|cbn; intuition discriminate| |left; reflexivity].
    intros f c b D. inversion D; subst. unfold allowed, for_all. intuition discriminate.
  - apply (BadValue _ FCollapse (lit "collapse") (ch "C") (lit "maybe") []); [unfold allowed; tauto|constructor|].
    intros [|] T; cbn in T; intuition discriminate.
  - vm_compute. reflexivity.
Qed.

Example C81_example : leading [Given FFile (lit "j")] [lit "--file"; lit "j"] /\
  gledger (env0 []) L0 help0 lib0 [lit "--file"; lit "j"] = Result (lit "usage") (Some 0).
Proof.
  split; [|vm_compute; reflexivity].
  apply (LeadFlag FFile (lit "j") [lit "--file"; lit "j"]); [left; reflexivity|left; do 2 eexists; apply DocFile|apply (LongNext FFile (lit "file") (ch "f")); apply DocFile|constructor].
Qed.

Example C80_alone_example : bad (fun f => for_all f \/ f = FHelp) [lit "--nope"; lit "-x"] /\
  Forall (fun s => s = [] \/ hd 0 s = ch "-") [lit "--nope"; lit "-x"] /\
  gledger (env0 journal0) L0 help0 lib0 [lit "--file=j"; lit "--nope"; lit "-x"] = Result [] (Some 1).
Proof.
  split; [|split; [|vm_compute; reflexivity]].
  - apply (BadLong _ (lit "nope") [] [lit "-x"]); [discriminate|cbn; intuition discriminate| |left; reflexivity]. intros f c b D. inversion D.
  - apply Forall_cons; [right; reflexivity|]. apply Forall_cons; [right; reflexivity|]. apply Forall_nil.
Qed.
