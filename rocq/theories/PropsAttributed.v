(** * C131: where transactions are written matters to stats alone *)
From Verif Require Import Base BaseFacts Utf8 Unicode GoTime Strconv Display Journal JournalFacts Lexer LexSpec Parser ParserFacts Account Reporting Budget Cmd Spec TextSpec
  TreeSpec ReportSpec CmdSpec CmdFacts FlatSpec FlatFacts LineFacts IncludeFacts   InputFacts Sample PropsCmd PropsStats PropsInput PropsJoin PropsUnseen ProgramFacts.

(** The part of the report of stats that names the files [names]. *)
Definition naming (names : list str) (out : list str) : Prop :=
  exists n, canonical n (Z.of_nat (length names)) /\
    out = [lit "Transactions found in " ++ n ++ lit " files:" ++ [10]] ++ map (fun p => lit "  " ++ p ++ [10]) names.
(** The same, but that other files may be named. *)
Definition alike_elsewhere (from from' : list str) (r r' : outcome) : Prop :=
  strip_st (r_status r') = strip_st (r_status r) /\
  (r_out r' = r_out r \/
   exists names names' files files' tail, naming names files /\ naming names' files' /\ incl names from /\ incl names' from' /\
     r_out r = files ++ tail /\ r_out r' = files' ++ tail).

Lemma deliver_elsewhere : forall D (th : D -> transaction -> str -> D * status) ph evs evs' s,
  (forall s t p p', th s t p' = th s t p) -> (forall h s t p p', ph = Some h -> h s t p' = h s t p) -> map erase evs' = map erase evs ->
  deliver_all (Some th) ph s evs' = deliver_all (Some th) ph s evs.
Proof.
  intros D th ph evs. induction evs as [|e evs IH]; intros evs' s T P M; destruct evs' as [|e' evs']; try discriminate; [reflexivity|].
  cbn [map] in M. assert (deliver (Some th) ph s e' = deliver (Some th) ph s e) as Q.
  { destruct e as [t p|t p], e' as [t' p'|t' p']; injection M as <- _ || discriminate M; cbn [deliver]; [apply T|]. destruct ph as [h|]; [now apply P|reflexivity]. }
  assert (map erase evs' = map erase evs) as M' by (destruct e, e'; injection M; auto || discriminate).
  cbn [deliver_all]. rewrite Q. destruct (deliver (Some th) ph s e) as [s1 r]. destruct r; try reflexivity. now apply IH.
Qed.

(** The statistics but for the files. *)
Definition close (s s' : hstate stats) : Prop := h_n s' = h_n s /\ h_out s' = h_out s /\
  (s_first (h_data s'), s_last (h_data s'), s_count (h_data s'), s_accounts (h_data s'), s_payees (h_data s'), s_income (h_data s'), s_expense (h_data s')) =
  (s_first (h_data s), s_last (h_data s), s_count (h_data s), s_accounts (h_data s), s_payees (h_data s), s_income (h_data s), s_expense (h_data s)).
Lemma stats_close : forall E O fs evs evs' s s' from from', map erase evs' = map erase evs -> close s s' ->
  incl (map event_path evs) from -> incl (map event_path evs') from' -> incl (s_files (h_data s)) from -> incl (s_files (h_data s')) from' ->
  let '(s1, r) := deliver_all (Some (checked E O fs stats_handler)) None s evs in
  let '(s1', r') := deliver_all (Some (checked E O fs stats_handler)) None s' evs' in
  close s1 s1' /\ r' = r /\ incl (s_files (h_data s1)) from /\ incl (s_files (h_data s1')) from'.
Proof.
  intros E O fs evs. induction evs as [|e evs IH]; intros evs' s s' from from' M N I I' Z Z'; destruct evs' as [|e' evs']; try discriminate; [cbn [deliver_all]; auto|].
  assert (M' : map erase evs' = map erase evs) by (destruct e, e'; injection M; auto || discriminate).
  assert (J : incl (map event_path evs) from) by (intros x X; apply I; now right). assert (J' : incl (map event_path evs') from') by (intros x X; apply I'; now right).
  destruct e as [t p|t p], e' as [t' p'|t' p']; try discriminate M; cbn [deliver_all deliver]; [|now apply IH].
  injection M as -> _. assert (In p from) as Ip by (apply I; now left). assert (In p' from') as Ip' by (apply I'; now left).
  assert (K : let '(s1, r) := checked E O fs stats_handler s t p in let '(s1', r') := checked E O fs stats_handler s' t p' in
    close s1 s1' /\ r' = r /\ incl (s_files (h_data s1)) from /\ incl (s_files (h_data s1')) from').
  { destruct N as (N1 & N2 & N3). unfold checked. rewrite N1, N2. destruct (checkAgainstFilters E O fs (h_n s) t) as [[m ps]| |]; [|refine (conj (conj _ (conj _ _)) (conj _ (conj _ _))); cbn [h_n h_out h_data]; first [reflexivity|assumption]..].
    destruct (negb m && is_nil ps); [refine (conj (conj _ (conj _ _)) (conj _ (conj _ _))); cbn [h_n h_out h_data]; first [reflexivity|assumption]|]. unfold stats_handler, stats_step. cbn [h_data h_n h_out].
    injection N3 as F1 F2 F3 F4 F5 F6 F7. rewrite F1, F2, F3, F4, F5, F6, F7.
    destruct (fold_left (stats_posting (t_date t)) ps (Some (s_income (h_data s), s_expense (h_data s)))) as [[inc exp]|]; [|refine (conj (conj _ (conj _ _)) (conj _ (conj _ _))); cbn [h_n h_out h_data]; first [reflexivity|assumption|congruence]].
    cbn [h_data h_n h_out s_files]. split; [repeat split|]. split; [reflexivity|]. unfold set_add.
    split; [destruct (existsb (str_eqb p) (s_files (h_data s)))|destruct (existsb (str_eqb p') (s_files (h_data s')))]; try assumption; apply incl_app; try assumption; intros x [<-|[]]; assumption. }
  destruct (checked E O fs stats_handler s t p) as [s1 r], (checked E O fs stats_handler s' t p') as [s1' r']. destruct K as (K1 & -> & K2 & K3).
  destruct r; [apply IH; assumption|auto..].
Qed.
Lemma balance_elsewhere : forall E O fs evs evs' s s', map erase evs' = map erase evs -> near s s' ->
  let '(s1, r) := deliver_all (Some (checked E O fs balance_handler)) (Some balance_ph) s evs in
  let '(s1', r') := deliver_all (Some (checked E O fs balance_handler)) (Some balance_ph) s' evs' in near s1 s1' /\ r' = r.
Proof.
  intros E O fs evs. induction evs as [|e evs IH]; intros evs' s s' M N; destruct evs' as [|e' evs']; try discriminate; [cbn [deliver_all]; auto|].
  assert (M' : map erase evs' = map erase evs) by (destruct e, e'; injection M; auto || discriminate).
  destruct e as [t p|t p], e' as [t' p'|t' p']; try discriminate M; cbn [deliver_all deliver]; injection M as -> _.
  - assert (K : let '(s1, r) := checked E O fs balance_handler s t p in let '(s1', r') := checked E O fs balance_handler s' t p' in near s1 s1' /\ r' = r).
    { destruct N as (N1 & N2 & N3). unfold checked. rewrite N1, N2. destruct (checkAgainstFilters E O fs (h_n s) t) as [[m ps]| |]; [|repeat split; assumption..].
      destruct (negb m && is_nil ps); [repeat split; assumption|]. unfold balance_handler. cbn [h_data h_n h_out].
      pose proof (postings_near ps (j_addTransaction (h_data s) t p) (j_addTransaction (h_data s') t p') N3) as K.
      destruct (j_addPostings (j_addTransaction (h_data s) t p) ps) as [[j1 o] r], (j_addPostings (j_addTransaction (h_data s') t p') ps) as [[j1' o'] r'].
      destruct K as (A & -> & ->). repeat split; assumption. }
    destruct (checked E O fs balance_handler s t p) as [s1 r], (checked E O fs balance_handler s' t p') as [s1' r']. destruct K as [N' ->].
    destruct r; [apply IH; assumption|auto..].
  - assert (K : let '(s1, r) := balance_ph s t p in let '(s1', r') := balance_ph s' t p' in near s1 s1' /\ r' = r).
    { destruct N as (N1 & N2 & N3). unfold balance_ph, j_addPeriodicTransaction, pt_run. destruct (is_pnone (pe_interval (pt_period t))); cbn; repeat split; cbn; congruence. }
    destruct (balance_ph s t p) as [s1 r], (balance_ph s' t p') as [s1' r']. destruct K as [N' ->]. destruct r; [apply IH; assumption|auto..].
Qed.

Section Elsewhere.
Variable E : env.
Variable O : opts.
Variable files : str -> option file.
Variable depth : nat.
Let E' := with_files E files depth.
Hypothesis Same : map erase (fst (stream E' O)) = map erase (fst (stream E O)).
Hypothesis End : snd (stream E' O) = snd (stream E O).

Lemma parse_elsewhere : forall D (h : D -> transaction -> str -> D * status) ph s,
  (forall s t p p', h s t p' = h s t p) -> (forall g s t p p', ph = Some g -> g s t p' = g s t p) ->
  fst (parse_cmd E' O (Some h) ph s) = fst (parse_cmd E O (Some h) ph s) /\
  strip_st (snd (parse_cmd E' O (Some h) ph s)) = strip_st (snd (parse_cmd E O (Some h) ph s)).
Proof.
  intros D h ph s H P. pose proof (parse_cmd_fold E O D (Some h) ph s) as A. pose proof (parse_cmd_fold E' O D (Some h) ph s) as A'.
  destruct (stream E O) as [evs r]. destruct (stream E' O) as [evs' r']. cbn [fst snd] in Same, End. subst r'.
  rewrite (deliver_elsewhere D h ph evs evs' s H P Same) in A'. destruct (deliver_all _ _ _ _) as [s' q]. destruct A as [A1 A2], A' as [B1 B2].
  split; [congruence|]. destruct q; congruence.
Qed.
Lemma checked_elsewhere : forall D fs k, (forall (s : hstate D) n t ps p p', k s n t ps p' = k s n t ps p) ->
  forall s t p p', checked E O fs k s t p' = checked E O fs k s t p.
Proof. intros D fs k H s t p p'. unfold checked. destruct (checkAgainstFilters E O fs (h_n s) t) as [[m ps]| |]; try reflexivity. now rewrite (H _ _ _ _ p p'). Qed.
Lemma date_checked_elsewhere : forall D k, (forall (s : hstate D) t p p', k s t p' = k s t p) -> forall s t p p', date_checked E O k s t p' = date_checked E O k s t p.
Proof. intros D k H s t p p'. unfold date_checked. destruct (withinDateRange E O (h_n s) t) as [[|]| |]; try reflexivity. now rewrite (H _ _ p p'). Qed.

(** When the files hold the same entries in the same order, wherever they are
    written, and reading them ends alike, every command but stats does the same. *)
Theorem C131_elsewhere : alike (accounts_cmd E O) (accounts_cmd E' O) /\ alike (balance_cmd E O) (balance_cmd E' O) /\
  alike (budget_cmd E O) (budget_cmd E' O) /\ alike (payees_cmd E O) (payees_cmd E' O) /\ alike (print_cmd E O) (print_cmd E' O).
Proof.
  split; [|split; [|split; [|split]]]; apply filters_alike; intro fs.
  - unfold accounts_run. destruct (parse_elsewhere _ (date_checked E O accounts_handler) None (HS 0 [] [])) as [A B]; [now apply date_checked_elsewhere|discriminate|]. now apply finish_alike.
  - assert (K : near (fst (balance_run E O fs)) (fst (balance_run E' O fs)) /\ strip_st (snd (balance_run E' O fs)) = strip_st (snd (balance_run E O fs))).
    { unfold balance_run. set (s0 := HS 0 [] newJournal). change (checked E' O fs balance_handler) with (checked E O fs balance_handler).
      pose proof (parse_cmd_fold E O _ (Some (checked E O fs balance_handler)) (Some balance_ph) s0) as A.
      pose proof (parse_cmd_fold E' O _ (Some (checked E O fs balance_handler)) (Some balance_ph) s0) as A'.
      pose proof (balance_elsewhere E O fs _ _ s0 s0 Same (conj eq_refl (conj eq_refl eq_refl))) as K.
      destruct (stream E O) as [evs r]. destruct (stream E' O) as [evs' r']. cbn [fst snd] in *. subst r'.
      destruct (deliver_all _ _ s0 evs) as [s q], (deliver_all _ _ s0 evs') as [s' q']. destruct K as [K ->], A as [-> A], A' as [-> A']. split; [exact K|]. destruct q; congruence. }
    destruct K as [(N1 & N2 & N3) St]. destruct (balance_run E O fs) as [s q], (balance_run E' O fs) as [s' q']. cbn [fst snd] in *.
    unfold finish. change (prepareBalance E') with (prepareBalance E). rewrite N3, N2. destruct q, q'; try discriminate St; split; auto.
  - unfold budget_run. destruct (parse_elsewhere _ (checked E O fs budget_handler) (Some budget_ph) (HS 0 [] newBudget)) as [A B]; [now apply checked_elsewhere|intros g s t p p' H; now injection H as <-|]. now apply finish_alike.
  - unfold payees_run. destruct (parse_elsewhere _ (date_checked E O payees_handler) None (HS 0 [] [])) as [A B]; [now apply date_checked_elsewhere|discriminate|]. now apply finish_alike.
  - unfold print_run. destruct (parse_elsewhere _ (checked E O fs print_handler) None (HS 0 [] [])) as [A B]; [now apply checked_elsewhere|discriminate|]. now apply finish_alike.
Qed.

(** stats does the same but for the files it names, which are files of the
    journals. *)
Theorem C131_stats : orders E ->
  alike_elsewhere (map event_path (fst (stream E O))) (map event_path (fst (stream E' O))) (stats_cmd E O) (stats_cmd E' O).
Proof.
  intros [Or _]. unfold stats_cmd, with_filters. change (makeFilters E' (o_args O)) with (makeFilters E (o_args O)).
  destruct (makeFilters E (o_args O)) as [fs| |]; [|split; [reflexivity|now left]..].
  set (from := map event_path (fst (stream E O))). set (from' := map event_path (fst (stream E' O))).
  assert (K : close (fst (stats_run E O fs)) (fst (stats_run E' O fs)) /\ strip_st (snd (stats_run E' O fs)) = strip_st (snd (stats_run E O fs)) /\
    incl (s_files (h_data (fst (stats_run E O fs)))) from /\ incl (s_files (h_data (fst (stats_run E' O fs)))) from' /\ h_out (fst (stats_run E O fs)) = []).
  { subst from from'. unfold stats_run. set (s0 := HS 0 [] newStats). change (checked E' O fs stats_handler) with (checked E O fs stats_handler).
    pose proof (parse_cmd_fold E O _ (Some (checked E O fs stats_handler)) None s0) as A.
    pose proof (parse_cmd_fold E' O _ (Some (checked E O fs stats_handler)) None s0) as A'.
    pose proof (stats_close E O fs _ _ s0 s0 _ _ Same (conj eq_refl (conj eq_refl eq_refl)) (incl_refl _) (incl_refl _) (incl_nil_l _) (incl_nil_l _)) as K.
    destruct (stream E O) as [evs r]. destruct (stream E' O) as [evs' r']. cbn [fst snd] in *. subst r'.
    destruct (deliver_all _ _ s0 evs) as [s q] eqn:Dv, (deliver_all _ _ s0 evs') as [s' q']. destruct K as (K & -> & I & I'), A as [-> A], A' as [-> A'].
    split; [exact K|]. split; [destruct q; congruence|]. split; [exact I|]. split; [exact I'|].
    assert (Qt : forall evs s s1 q, h_out s = [] -> deliver_all (Some (checked E O fs stats_handler)) None s evs = (s1, q) -> h_out s1 = []).
    { clear. induction evs as [|[t p|t p] evs IH]; intros s s1 q H D; cbn [deliver_all deliver] in D; [now injection D as <- <-| |now apply (IH _ _ _ H D)].
      assert (X : h_out (fst (checked E O fs stats_handler s t p)) = []).
      { unfold checked. destruct (checkAgainstFilters E O fs (h_n s) t) as [[m ps]| |]; [|exact H..]. destruct (negb m && is_nil ps); [exact H|].
        unfold stats_handler. destruct (stats_step _ _ _ _); exact H. }
      destruct (checked E O fs stats_handler s t p) as [s2 r]. destruct r; [exact (IH _ _ _ X D)|injection D as <- <-; exact X..]. }
    exact (Qt evs s0 s q eq_refl Dv). }
  destruct K as ((N1 & N2 & N3) & St & I & I' & Q0). destruct (stats_run E O fs) as [s q], (stats_run E' O fs) as [s' q']. cbn [fst snd] in *. unfold finish.
  destruct q, q'; try discriminate St; [|split; [exact St|left; cbn; now rewrite N2]..].
  rewrite N2, Q0, N1. cbn [app]. split; [reflexivity|]. cbn [r_out]. injection N3 as F1 F2 F3 F4 F5 F6 F7.
  unfold stats_report, all_ages. rewrite F1, F2, F3, F4, F5, F6, F7. destruct (s_count (h_data s) =? 0); [now left|]. right.
  change (e_order E') with (e_order E). change (e_now E') with (e_now E).
  exists (e_order E (h_n s) _ (s_files (h_data s))), (e_order E (h_n s) _ (s_files (h_data s'))). eexists _, _, _.
  assert (Nm : forall l, naming (e_order E (h_n s) _ l) ([lit "Transactions found in " ++ itoa (Z.of_nat (length l)) ++ lit " files:" ++ [10]] ++ map (fun p => lit "  " ++ p ++ [10]) (e_order E (h_n s) _ l))).
  { intro l. exists (itoa (Z.of_nat (length l))). split; [|reflexivity]. rewrite (Permutation_length (Or _ _ _)). apply canonical_z. lia. }
  split; [apply Nm|]. split; [apply Nm|].
  split; [intros x X; apply I; exact (Permutation_in _ (Or _ _ _) X)|]. split; [intros x X; apply I'; exact (Permutation_in _ (Or _ _ _) X)|].
  rewrite <- !app_assoc. split; reflexivity.
Qed.
End Elsewhere.

(** A line that includes a file of the same directory, and the text of that file
    and a blank line in its place. *)
Theorem C131_inlined : forall E O p before incl after path g, journal_path E O = Some p -> orders E ->
  line_start before -> line_start g -> ~ In LF incl -> Z.of_nat (length incl) < 4096 ->
  included (e_unicode E) p (chop_cr incl) = Some path -> path <> p -> e_fs E path = Some (File g false) -> dir_of path = dir_of p ->
  let E1 := holding E p (before ++ incl ++ LF :: after) in let E2 := holding E p (before ++ g ++ LF :: after) in
  snd (stream E1 O) = SOk ->
  snd (stream E2 O) = SOk /\
  (alike (accounts_cmd E1 O) (accounts_cmd E2 O) /\ alike (balance_cmd E1 O) (balance_cmd E2 O) /\
   alike (budget_cmd E1 O) (budget_cmd E2 O) /\ alike (payees_cmd E1 O) (payees_cmd E2 O) /\ alike (print_cmd E1 O) (print_cmd E2 O)) /\
  alike_elsewhere (map event_path (fst (stream E1 O))) (map event_path (fst (stream E2 O))) (stats_cmd E1 O) (stats_cmd E2 O).
Proof.
  intros E O p before incl after path g J Or LB LG NI LI IE Np Ef De E1 E2 Ok.
  set (x := before ++ incl ++ LF :: after) in *. set (y := before ++ g ++ LF :: after) in *.
  assert (Ex : file_lines x = file_lines before ++ Line (chop_cr incl) :: file_lines after) by exact (file_lines_inserted before incl after LB NI LI).
  assert (Ey : file_lines y = file_lines before ++ file_lines g ++ Line [] :: file_lines after).
  { unfold y. rewrite file_lines_start by assumption. f_equal. rewrite file_lines_start by assumption. reflexivity. }
  assert (Fp : e_fs E1 path = Some (File g false)).
  { cbn. destruct (str_eqb path p) eqn:Q; [apply str_eqb_eq in Q; contradiction|exact Ef]. }
  pose proof (ok_no_cycle E O p J x Ok) as Nc.
  assert (Sx : stream E1 O = trace (e_unicode E) (e_fs E1) (e_depth E) p (File x false)) by exact (holding_stream E O p J x).
  assert (Sy : stream E2 O = trace (e_unicode E) (e_fs E2) (e_depth E) p (File y false)) by exact (holding_stream E O p J y).
  rewrite Sx in Ok. destruct (e_depth E) as [|d] eqn:Dd.
  { exfalso. apply trace_ok_entries, entries_ok_no_stop, no_stop_include in Ok as (_ & _ & K).
    destruct (K (chop_cr incl) path) as (d' & _ & X & _); [cbn [f_bytes]; rewrite Ex; apply in_app_iff; right; now left|exact IE|discriminate]. }
  destruct (C17_inlining_the_text (e_unicode E) (e_fs E1) d p path before incl after g LB LG NI LI IE Fp De Ok) as [M Oy].
  fold x y in M, Oy.
  assert (T : trace (e_unicode E) (e_fs E2) (S d) p (File y false) = trace (e_unicode E) (e_fs E1) (S d) p (File y false)).
  { apply (trace_elsewhere _ _ _ p (holding_off E p x y)); [exact Oy|]. intros f' Q (l & q & f & I & Hi & Hf & R). unfold E1 in Q. rewrite holding_at in Q. injection Q as <-.
    cbn [snd fst f_bytes] in I, Hi. rewrite Ey in I. apply Nc. apply in_app_iff in I as [I|I].
    - exists l, q, f. split; [cbn [snd f_bytes]; rewrite Ex; apply in_app_iff; now left|]. split; [exact Hi|]. split; [exact Hf|exact R].
    - apply in_app_iff in I as [I|[I|I]].
      + exists (chop_cr incl), path, (File g false). split; [cbn [snd f_bytes]; rewrite Ex; apply in_app_iff; right; now left|]. split; [exact IE|]. split; [exact Fp|].
        eapply reads_trans; [|exact R]. eapply reads_include; [apply reads_self|exact I| |exact Hf]. rewrite (included_dir _ path p) by exact De. exact Hi.
      + injection I as <-. discriminate Hi.
      + exists l, q, f. split; [cbn [snd f_bytes]; rewrite Ex; apply in_app_iff; right; now right|]. split; [exact Hi|]. split; [exact Hf|exact R]. }
  rewrite <- T in M, Oy. rewrite <- Sx in M, Ok. rewrite <- Sy in M, Oy. split; [exact Oy|].
  change E2 with (with_files E1 (e_fs E2) (e_depth E)) in *.
  assert (End : snd (stream (with_files E1 (e_fs E2) (e_depth E)) O) = snd (stream E1 O)) by congruence.
  split; [apply (C131_elsewhere E1 O _ _ M End)|apply (C131_stats E1 O _ _ M End Or)].
Qed.

Definition before_text : str := lit "2020-01-02 Shop" ++ [10] ++ lit "  A    $2" ++ [10] ++ lit "  B" ++ [10].
Example C131_example : let E := env1 [(lit "dir/part.j", part)] in let O := opts0 "dir/main.j" in let p := lit "dir/main.j" in
  let incl := lit "include part.j" in let after := lit "2020-01-06 Shop" ++ [10] ++ lit "  A    $2" ++ [10] ++ lit "  B" ++ [10] in
  let E1 := holding E p (before_text ++ incl ++ LF :: after) in let E2 := holding E p (before_text ++ part ++ LF :: after) in
  journal_path E O = Some p /\ orders E /\ line_start before_text /\ line_start part /\ ~ In LF incl /\ Z.of_nat (length incl) < 4096 /\
  included (e_unicode E) p (chop_cr incl) = Some (lit "dir/part.j") /\ lit "dir/part.j" <> p /\ e_fs E (lit "dir/part.j") = Some (File part false) /\
  dir_of (lit "dir/part.j") = dir_of p /\ snd (stream E1 O) = SOk /\ length (r_out (print_cmd E1 O)) = 3%nat /\
  nth_error (r_out (stats_cmd E1 O)) 0 = Some (lit "Transactions found in 2 files:" ++ [10]) /\
  nth_error (r_out (stats_cmd E2 O)) 0 = Some (lit "Transactions found in 1 files:" ++ [10]).
Proof.
  cbv zeta. split; [reflexivity|]. split; [apply env1_orders|]. split; [right; unfold before_text; rewrite !app_assoc; eexists; reflexivity|].
  split; [right; exists (removelast part); reflexivity|].
  split; [cbn; intro X; repeat destruct X as [X|X]; discriminate X || exact X|]. split; [vm_compute; reflexivity|]. split; [vm_compute; reflexivity|].
  split; [intro X; discriminate X|]. repeat split; vm_compute; reflexivity.
Qed.
