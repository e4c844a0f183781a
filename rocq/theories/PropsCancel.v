(** * C126: what cancels out leaves no trace in a balance *)
From Verif Require Import Base BaseFacts Utf8 Unicode GoTime Strconv Display Journal JournalFacts Lexer Parser ParserFacts Account Reporting Cmd Spec TextSpec
  TreeSpec TreeFacts ReportSpec ReportFacts CmdSpec CmdFacts BalanceFacts FlatSpec Sample PropsParser PropsCmd PropsBalance PropsPrint PropsReread PropsAgain PropsSums
  PropsConcat PropsJoin.

(** To each account the same is posted in all, none counting as zero. *)
Definition equal_sums (ps ps' : list posting) : Prop := forall a, zero64 (sum_at a ps' - sum_at a ps).
(** No account of the name that the program gives to the root. *)
Definition unreserved (ps : list posting) : Prop := Forall (fun p => ~ In (lit "_root_") (components p)) ps.

Lemma equal_below : forall ps ps', equal_sums ps ps' -> forall q, wrap64 (total (filter (below q) ps')) = wrap64 (total (filter (below q) ps)).
Proof.
  intros ps ps' S q. set (names := nodup str_eq_dec (map po_account (ps ++ ps'))). assert (N : NoDup names) by apply NoDup_nodup.
  pose (f := fun a => prefixb q (split 58 a)). apply zero_wrap.
  change (below q) with (fun p => f (po_account p)).
  rewrite (total_by_name f names ps' N), (total_by_name f names ps N).
  - apply sums_equal. intro a. apply S.
  - intros p I. apply nodup_In, in_map, in_or_app. now left.
  - intros p I. apply nodup_In, in_map, in_or_app. now right.
Qed.

Lemma nonzero_used : forall q ps, wrap64 (total (filter (below q) ps)) <> 0 -> exists p, In p ps /\ prefix q (components p).
Proof. intros q ps N. apply below_some. intro E. apply N. rewrite E. reflexivity. Qed.

Lemma unreserved_last : forall ps q r, unreserved ps -> (exists p, In p ps /\ prefix q (components p)) -> r <> [] -> prefix r q -> last r [] <> lit "_root_".
Proof.
  intros ps q r U (p & I & [x X]) N [y ->] L. unfold unreserved in U. rewrite Forall_forall in U. apply (U p I). rewrite X. rewrite <- L.
  apply in_or_app. left. apply in_or_app. left. destruct (exists_last N) as (l & z & ->). rewrite last_last. apply in_or_app. right. now left.
Qed.

Lemma equal_shown : forall ps ps' q, unreserved ps -> unreserved ps' -> equal_sums ps ps' -> q <> [] -> shown false ps q -> shown false ps' q.
Proof.
  intros ps ps' q U U' S Nq [A [B|B]]; [discriminate|].
  assert (B' : forall r, r <> [] -> prefix r q -> wrap64 (total (filter (below r) ps')) <> 0).
  { intros r N P. rewrite (equal_below _ _ S). destruct (B r N P) as [X|X]; [exact X|]. destruct (unreserved_last ps q r U A N P X). }
  split; [|right; intros r N P; left; auto]. apply nonzero_used. apply B'; [exact Nq|]. exists []. now rewrite app_nil_r.
Qed.

Lemma equal_perm : forall ps ps' l l', equal_sums ps ps' -> Permutation ps l -> Permutation ps' l' -> equal_sums l l'.
Proof.
  intros ps ps' l l' S P P' a.
  assert (X : forall m m', Permutation m m' -> sum_at a m = sum_at a m').
  { clear. intros m m' H. induction H; rewrite ?sum_at_cons in *; try reflexivity; lia. }
  rewrite <- (X _ _ P), <- (X _ _ P'). apply S.
Qed.
Lemma equal_sym : forall ps ps', equal_sums ps ps' -> equal_sums ps' ps.
Proof.
  intros ps ps' S a. specialize (S a). unfold zero64 in *. replace (sum_at a ps - sum_at a ps') with (- (sum_at a ps' - sum_at a ps)) by lia.
  apply Z.mod_opp_l_z; [discriminate|exact S].
Qed.

(** Two runs of balance without --show-zero, over whatever journals, dates and
    arguments, in one commodity: if to each account the same is posted in all,
    where nothing counts as zero, they end alike. *)
Theorem C126_sums : forall c E O fs sel E' O' fs' sel', sane_clock E -> orders E -> filters_for E (o_args O) fs ->
  sane_clock E' -> orders E' -> filters_for E' (o_args O') fs' ->
  CmdSpec.readable E O -> picks E O fs (txns 0 (fst (stream E O))) sel -> CmdSpec.readable E' O' -> picks E' O' fs' (txns 0 (fst (stream E' O'))) sel' ->
  Forall priced (taken sel) -> Forall priced (taken sel') -> uniform c (taken sel) -> uniform c (taken sel') ->
  unreserved (taken sel) -> unreserved (taken sel') -> equal_sums (taken sel) (taken sel') -> (taken sel = [] <-> taken sel' = []) ->
  o_flatten O' = o_flatten O -> o_collapse O' = o_collapse O -> o_show_zero O = false -> o_show_zero O' = false ->
  balance_cmd E' O' = balance_cmd E O.
Proof.
  intros c E O fs sel E' O' fs' sel' C Or F C' Or' F' Re P Re' P' Pr Pr' U U' V V' S Nn Ofl Oc Oz Oz'.
  rewrite (balance_cmd_run _ _ _ F), (balance_cmd_run _ _ _ F').
  pose proof (balance_run_spec E O fs C Or) as K. pose proof (balance_run_spec E' O' fs' C' Or') as K'.
  destruct (balance_run E O fs) as [s r]. destruct (balance_run E' O' fs') as [s' r'].
  destruct r; [|exfalso; apply K; split; [exact Re|]; exists sel; auto..].
  destruct r'; [|exfalso; apply K'; split; [exact Re'|]; exists sel'; auto..].
  destruct K as (_ & sel1 & P1 & F1 & B & Q). destruct K' as (_ & sel1' & P1' & F1' & B' & Q').
  assert (H1 : Permutation (taken sel) (taken sel1)) by (eapply hits_taken; eassumption).
  assert (H1' : Permutation (taken sel') (taken sel1')) by (eapply hits_taken; eassumption).
  assert (S1 : equal_sums (taken sel1) (taken sel1')) by (eapply equal_perm; eassumption).
  assert (U1 : uniform c (taken sel1)) by (eapply uniform_perm; eassumption).
  assert (U1' : uniform c (taken sel1')) by (eapply uniform_perm; eassumption).
  assert (V1 : unreserved (taken sel1)) by (eapply Permutation_Forall; eassumption).
  assert (V1' : unreserved (taken sel1')) by (eapply Permutation_Forall; eassumption).
  assert (N1 : taken sel1 = [] <-> taken sel1' = []).
  { assert (X : forall (l l' : list posting), Permutation l l' -> (l = [] <-> l' = [])).
    { intros l l' X. split; intros ->; [|apply Permutation_sym in X]; now apply Permutation_nil in X. }
    rewrite <- (X _ _ H1), <- (X _ _ H1'). exact Nn. }
  unfold finish. rewrite Q, Q', !(complaints_none c) by (auto; constructor). cbn [app].
  assert (Rep : forall a, report O' a = report O a) by (intro a; unfold report; now rewrite Ofl, Oc). rewrite Rep. apply (f_equal (fun l => Outcome l SOk)).
  destruct (prepared E O _ _ Or B) as [D H]. destruct (prepared E' O' _ _ Or' B') as [D' H']. rewrite Oz in H. rewrite Oz' in H'.
  assert (Same : forall q d d', (filter (below q) (taken sel1) = [] <-> filter (below q) (taken sel1') = []) ->
    holds (taken sel1) q d -> holds (taken sel1') q d' -> stripped d' = stripped d).
  { intros q [n p [cm x] po] [n' p' [cm' x'] po'] Ne [A1 A2 _ A4 A5] [B1 B2 _ B4 B5]. unfold stripped. cbn in *. subst.
    assert (X : forall (Q : posting -> Prop) l, Forall Q l -> Forall Q (filter (below q) l)).
    { intros Q0 l Hl. rewrite Forall_forall in *. intros p0 I. apply filter_In in I as [I _]. auto. }
    rewrite (equal_below _ _ S1), !(uniform_first c) by (apply X; assumption).
    destruct (filter (below q) (taken sel1)), (filter (below q) (taken sel1')); try reflexivity; exfalso.
    - destruct Ne as [Ne _]. discriminate (Ne eq_refl).
    - destruct Ne as [_ Ne]. discriminate (Ne eq_refl). }
  assert (Root : forall l, filter (below []) l = l) by (clear; induction l as [|p l IH]; [reflexivity|]; cbn [filter]; unfold below at 1; cbn; now rewrite IH).
  assert (Both : forall q, q = [] \/ (shown false (taken sel1) q /\ shown false (taken sel1') q) ->
    (filter (below q) (taken sel1) = [] <-> filter (below q) (taken sel1') = [])).
  { intros q [->|[[X _] [Y _]]]; [now rewrite !Root|]. apply below_some in X, Y. tauto. }
  apply report_same; auto. intros q x.
  assert (Ws : forall ps ps', unreserved ps -> unreserved ps' -> equal_sums ps ps' -> q = [] \/ shown false ps q -> q = [] \/ (shown false ps q /\ shown false ps' q)).
  { intros ps ps' W W' Sx [->|Sh]; [now left|]. destruct q as [|k q]; [now left|]. right. split; [exact Sh|]. apply (equal_shown ps ps'); auto. discriminate. }
  split.
  - intros (d & N & ->). apply H' in N as [N Hd]. destruct (holds_some (taken sel1) q) as [d' Hd'].
    destruct (Ws _ _ V1' V1 (equal_sym _ _ S1) N) as [Nq|[X Y]]; exists d'; (split; [apply H; split; [tauto|exact Hd']|]);
      (apply (Same q); [apply Both; tauto|assumption|assumption]).
  - intros (d & N & ->). apply H in N as [N Hd]. destruct (holds_some (taken sel1') q) as [d' Hd'].
    destruct (Ws _ _ V1 V1' S1 N) as [Nq|[X Y]]; exists d'; (split; [apply H'; split; [tauto|exact Hd']|]);
      symmetry; (apply (Same q); [apply Both; tauto|assumption|assumption]).
Qed.

(** Entries that cancel out account by account, put after a journal in one
    commodity: the balance is that of the journal alone. *)
Theorem C126_joined : forall c E O p a b fs s1 s2, sane_clock E -> orders E -> sorts E -> filters_for E (o_args O) fs -> steady E ->
  journal_path E O = Some p -> line_start a ->
  CmdSpec.readable (holding E p a) O -> CmdSpec.readable (holding E p b) O ->
  picks (holding E p a) O fs (txns 0 (fst (stream (holding E p a) O))) s1 ->
  picks (holding E p b) O fs (txns 0 (fst (stream (holding E p b) O))) s2 ->
  o_show_zero O = false -> taken s1 <> [] ->
  Forall priced (taken s1 ++ taken s2) -> uniform c (taken s1 ++ taken s2) -> unreserved (taken s1 ++ taken s2) ->
  (forall x, zero64 (sum_at x (taken s2))) ->
  balance_cmd (holding E p (a ++ LF :: b)) O = balance_cmd (holding E p a) O.
Proof.
  intros c E O p a b fs s1 s2 C Or So F St Jp Ls R1 R2 P1 P2 Oz Ne Pr U V Z.
  assert (Hf : forall x, filters_for (holding E p x) (o_args O) fs) by (intro x; now apply holding_filters).
  assert (R : CmdSpec.readable (holding E p (a ++ LF :: b)) O) by (apply joined_readable; auto).
  destruct (C42_print (holding E p (a ++ LF :: b)) O fs C Or So (Hf _)) as [K _]. destruct (K R) as (s & _ & P & _). clear K.
  assert (Pm : Permutation (taken s) (taken s1 ++ taken s2)) by (eapply joined_picks; eauto; apply R).
  assert (X : forall (Q : posting -> Prop), Forall Q (taken s1 ++ taken s2) -> Forall Q (taken s) /\ Forall Q (taken s1)).
  { intros Q H. split; [now apply (Permutation_Forall (Permutation_sym Pm))|]. now apply Forall_app in H as [H _]. }
  apply (C126_sums c (holding E p a) O fs s1 (holding E p (a ++ LF :: b)) O fs s); auto; try (now apply X).
  - intro x. apply (equal_perm (taken s1) (taken s1 ++ taken s2)); [|reflexivity|now symmetry]. clear - Z. intro x. specialize (Z x).
    replace (sum_at x (taken s1 ++ taken s2) - sum_at x (taken s1)) with (sum_at x (taken s2)); [exact Z|].
    induction (taken s1) as [|t l IH]; cbn [app]; rewrite ?sum_at_cons; [unfold sum_at at 3; cbn; lia|lia].
  - split; intro Em; [now rewrite Em in Ne|]. rewrite Em in Pm. apply Permutation_nil, app_eq_nil in Pm as [Pm _]. exact Pm.
Qed.

(** A purchase and what undoes it, one of the two accounts being new; with
    --show-zero that account appears. *)
Definition undone_text : str :=
  lit "2021-04-01 P" ++ [10] ++ lit "    shop:food    $7" ++ [10] ++ lit "    z" ++ [10] ++ [10] ++
  lit "2021-04-02 P undone" ++ [10] ++ lit "    z    $3" ++ [10] ++ lit "    z    $4" ++ [10] ++ lit "    shop:food" ++ [10].
Example C126_example : let E := env1 [] in let O := opts0 "j" in let at_ x := holding E (lit "j") x in
  journal_path E O = Some (lit "j") /\ line_start text_same /\ steady E /\ sane_clock E /\ orders E /\ sorts E /\ filters_for E (o_args O) [] /\
  CmdSpec.readable (at_ text_same) O /\ CmdSpec.readable (at_ undone_text) O /\ o_show_zero O = false /\
  (exists s1 s2, picks (at_ text_same) O [] (txns 0 (fst (stream (at_ text_same) O))) s1 /\
     picks (at_ undone_text) O [] (txns 0 (fst (stream (at_ undone_text) O))) s2 /\ taken s1 <> [] /\ length (taken s2) = 5%nat /\
     Forall priced (taken s1 ++ taken s2) /\ uniform (lit "$") (taken s1 ++ taken s2) /\ unreserved (taken s1 ++ taken s2) /\
     forall x, zero64 (sum_at x (taken s2))) /\
  length (r_out (balance_cmd (at_ text_same) O)) = 3%nat /\
  balance_cmd (at_ (text_same ++ LF :: undone_text)) (opts_zero [] []) <> balance_cmd (at_ text_same) (opts_zero [] []).
Proof.
  cbn zeta. split; [reflexivity|]. split; [right; eexists; unfold text_same; rewrite !app_assoc; reflexivity|]. split; [intro n; split; reflexivity|].
  split; [apply env1_clock|]. split; [apply env1_orders|]. split; [exact (env0_sorts [])|]. split; [split; constructor|].
  split; [apply readable_noflags; vm_compute; reflexivity|]. split; [apply readable_noflags; vm_compute; reflexivity|]. split; [reflexivity|].
  split; [|split; [vm_compute; reflexivity|vm_compute; discriminate]].
  set (u1 := txns 0 (fst (stream (holding (env1 []) (lit "j") text_same) (opts0 "j")))).
  set (u2 := txns 0 (fst (stream (holding (env1 []) (lit "j") undone_text) (opts0 "j")))).
  vm_compute in u1, u2.
  exists (map (fun u => (u, t_postings (u_txn u))) u1), (map (fun u => (u, t_postings (u_txn u))) u2). subst u1 u2. cbn [map].
  split; [repeat (apply PickIt; [apply plain_within; [repeat split|vm_compute; discriminate]|reflexivity|reflexivity|reflexivity|]); apply PickNone|].
  split; [repeat (apply PickIt; [apply plain_within; [repeat split|vm_compute; discriminate]|reflexivity|reflexivity|reflexivity|]); apply PickNone|].
  split; [discriminate|]. split; [reflexivity|].
  split; [repeat constructor; discriminate|]. split; [repeat constructor|].
  split; [repeat constructor; cbn; intros H; decompose [or] H; discriminate || assumption|].
  intro x. cbn [taken flat_map snd t_postings u_txn app]. rewrite !sum_at_cons. cbn [po_account]. unfold quantity. cbn [po_amount am_quantity].
  unfold zero64, sum_at. cbn [filter total].
  repeat match goal with |- context [if str_eqb ?l x then _ else _] => destruct (str_eqb l x) end; reflexivity.
Qed.
