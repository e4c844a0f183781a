(** * Reading budget entries written in the usual form *)
From Verif Require Import Base BaseFacts Utf8 Utf8Facts Unicode GoTime Strconv Journal Lexer LexSpec
  LexerFacts JournalText BookText LexText Parser FlatSpec FlatFacts Spec JournalFacts BuilderFacts LineFacts IncludeFacts
  TextSpec DateFacts AmountFacts ReadFacts WriteFacts BodyFacts.

Lemma kept_all : forall ps, Forall (fun p => po_amount p <> None) ps -> kept false ps = ps.
Proof. induction 1 as [|p ps H F IH]; [reflexivity|]. cbn. destruct (po_amount p); [now rewrite IH|congruence]. Qed.

Lemma kept_one : forall before p after, Forall (fun p => ~ elided p) (before ++ after) -> elided p ->
  kept false (before ++ p :: after) = before ++ p :: after.
Proof.
  intros before p after F El. apply Forall_app in F as [Fb Fa]. induction Fb as [|q before H F IH]; cbn [app kept].
  - rewrite El. f_equal. induction Fa as [|q after H F IH]; [reflexivity|]. cbn [kept]. unfold elided in H.
    destruct (po_amount q); [now rewrite IH|congruence].
  - unfold elided in H. destruct (po_amount q); [now rewrite IH|congruence].
Qed.

Lemma total_one : forall before cs a after, total (before ++ Posting cs a None :: after) = total (before ++ after).
Proof. intros. unfold total. rewrite !map_app. cbn [map]. induction (map quantity before) as [|x l IH]; cbn; [reflexivity|]. unfold sumZ in IH. cbn in IH. now rewrite IH. Qed.

Lemma commodity_one : forall before cs a after, last_commodity (before ++ Posting cs a None :: after) = last_commodity (before ++ after).
Proof. intros. unfold last_commodity, named_commodities. rewrite !map_app, !filter_app. reflexivity. Qed.

Lemma one_elided : forall before p after init z, Forall (fun p => ~ elided p) (before ++ after) ->
  before ++ p :: after = init ++ [z] -> ~ (elided z /\ Exists elided init).
Proof.
  intros before p after init z F EP [Ez Ei]. apply Exists_exists in Ei as (y & Iy & Ey). apply in_split in Iy as (i1 & i2 & ->).
  apply Forall_app in F as [Fb Fa]. rewrite Forall_forall in Fb, Fa.
  set (f := fun q => match po_amount q with None => true | _ => false end).
  assert (L2 : (2 <= length (filter f (before ++ p :: after)))%nat).
  { rewrite EP, !filter_app. cbn [filter]. assert (Fy : f y = true) by (unfold f; now rewrite Ey). assert (Fz : f z = true) by (unfold f; now rewrite Ez).
    rewrite Fy, Fz, !app_length. cbn. lia. }
  assert (N : forall l, (forall x, In x l -> ~ elided x) -> filter f l = []).
  { intros l H. induction l as [|x l IH]; [reflexivity|]. cbn. unfold f at 1. destruct (po_amount x) eqn:Q; [apply IH; intros; apply H; now right|].
    exfalso. apply (H x); [now left|exact Q]. }
  rewrite filter_app in L2. cbn [filter] in L2. rewrite (N before Fb), (N after Fa) in L2. destruct (f p); cbn in L2; lia.
Qed.

(** After which items an account may come in a budget entry. *)
Definition pready (i : itemType) : Prop := In i [commentItem; amountItem; accountItem; periodItem].

(** A budget entry is open. *)
Definition popened (tx : option transaction) (per : period) (t : transaction) (p : posting) (b : builder) : Prop :=
  exists i, pready i /\ b = Builder periodicTransaction tx (Some (PTxn per t)) (Some p) (Some i).

Section Period.
Variable U : unicode.
Variables (tx : option transaction) (per : period).
Notation open := (popened tx per).

Lemma pread_account : forall t p b a, open t p b ->
  built b accountItem a =
    (Builder periodicTransaction tx (Some (PTxn per (push t p)))
       (Some (Posting (po_comments (carry p)) (encode a) (po_amount (carry p)))) (Some accountItem), [], SOk).
Proof.
  intros t p b a (i & R & ->). unfold built, build. cbn [b_type buildPeriodicTransaction b_ptxn buildNormalTransaction].
  assert (negb (prev_in (Builder periodicTransaction tx (Some (PTxn per t)) (Some p) (Some i))
    [commentItem; transactionHeaderCommentItem; payeeItem; amountItem; accountItem; periodItem]) = false) as ->.
  { destruct R as [<-|[<-|[<-|[<-|[]]]]]; reflexivity. }
  cbn [b_cur target b_type b_ptxn option_map pt_txn]. unfold push, carry. destruct (po_account p); reflexivity.
Qed.

Lemma pread_posting : forall t p b a am, open t p b -> po_amount (carry p) = None ->
  match am with
  | None => exists b', flat_items b (posting_items a None) None = (b', [], SOk) /\
      open (push t p) (Posting (po_comments (carry p)) (encode a) None) b'
  | Some (c, w) =>
      forall q, parseAmount w = POk q -> exists b', flat_items b (posting_items a am) None = (b', [], SOk) /\
          open (push t p) (Posting (po_comments (carry p)) (encode a) (Some (Amount (encode c) q))) b'
  end.
Proof.
  intros t p b a am O N. destruct am as [[c w]|].
  - intros q Q. unfold posting_items. cbn [flat_items flat_item]. rewrite (pread_account t p b a O). rewrite N.
    cbn [fbind]. unfold built, build. cbn [b_type buildPeriodicTransaction b_ptxn buildNormalTransaction prev_in b_prev existsb item_eqb orb negb b_cur
       po_amount po_comments po_account set_cur set_prev b_txn fbind am_quantity am_commodity].
    rewrite Q. cbn. eexists. split; [reflexivity|]. eexists. split; [|reflexivity]. cbn. tauto.
  - unfold posting_items. cbn [flat_items flat_item]. rewrite (pread_account t p b a O), N. cbn.
    eexists. split; [reflexivity|]. eexists. split; [|reflexivity]. cbn. tauto.
Qed.

Lemma pposting_read : forall l p b t p0, posting_written U l p -> open t p0 b -> carry p0 = newPosting ->
  exists b', flat_line U l b = (b', [], SOk) /\ open (push t p0) p b' /\ po_account p <> [].
Proof.
  intros l p b t p0 H O C. destruct (posting_lexed U [] l p H) as (a & am & L & EA & NA & EC & AM).
  unfold flat_line. rewrite L.
  pose proof (pread_posting t p0 b a am O) as X. rewrite C in X. specialize (X eq_refl).
  assert (po_account p <> []) as N by (rewrite EA; destruct a as [|r a]; [congruence|]; rewrite encode_cons;
    pose proof (encode_rune_nonempty r); destruct (encode_rune r); [congruence|discriminate]).
  destruct p as [cs ac amt]. cbn [po_account po_amount po_comments] in *. subst cs ac.
  destruct am as [[c w]|].
  - destruct AM as (q & PA & ->). destruct (X q PA) as (b' & -> & O'). eauto.
  - subst amt. destruct X as (b' & -> & O'). eauto.
Qed.

Lemma premark_read : forall l n b t p, remark_written l n -> open t p b -> po_account p <> [] ->
  exists b', flat_line U l b = (b', [], SOk) /\ open t (addComment p n) b'.
Proof.
  intros l n b t p R (i & P & ->) N. destruct (remark_lexed U [] l n R) as (rs & L & <-). unfold flat_line. rewrite L.
  cbn [flat_items flat_item]. unfold built, build. cbn [b_type buildPeriodicTransaction b_ptxn buildNormalTransaction b_cur].
  destruct p as [cs ac am]. cbn [po_account] in *. destruct ac; [congruence|]. cbn. eexists. split; [reflexivity|]. eexists. split; [|reflexivity]. cbn. tauto.
Qed.

Lemma pcomments_read : forall ls cs, Forall2 remark_written ls cs -> forall b t p, open t p b -> po_account p <> [] ->
  exists b', flat U (map FLine ls) b = (b', [], SOk) /\ open t (with_comments p cs) b'.
Proof.
  induction 1 as [|l n ls cs R F IH]; intros b t p O N; cbn [map flat].
  - exists b. split; [reflexivity|]. destruct p. unfold with_comments. cbn. now rewrite app_nil_r.
  - destruct (premark_read l n b t p R O N) as (b1 & -> & O1).
    destruct (IH b1 t (addComment p n) O1) as (b2 & E & O2); [exact N|].
    cbn [fbind]. rewrite E. eexists. split; [reflexivity|].
    replace (with_comments p (n :: cs)) with (with_comments (addComment p n) cs); [assumption|].
    destruct p. unfold with_comments, addComment. cbn. now rewrite <- app_assoc.
Qed.

Lemma ppostings_read : forall ls ps, postings_written U ls ps -> forall b t p, open t p b -> carry p = newPosting ->
  exists b', flat U (map FLine ls) b = (b', [], SOk) /\
    open (fold_left push (removelast (p :: ps)) t) (last ps p) b'.
Proof.
  induction 1 as [|l q ls cs ls' ps W F PW IH]; intros b t p O C; cbn [map flat].
  - exists b. split; [reflexivity|exact O].
  - destruct (pposting_read l q b t p W O C) as (b1 & -> & O1 & N). cbn [fbind].
    rewrite map_app, flat_app by apply lines_no_stop.
    destruct (pcomments_read ls cs F b1 (push t p) q O1 N) as (b2 & -> & O2). cbn [fbind].
    destruct (IH b2 (push t p) (with_comments q cs) O2) as (b3 & -> & O3).
    { apply carry_account. exact N. }
    eexists. split; [reflexivity|]. cbn [removelast fold_left] in *.
    assert (last (with_comments q cs :: ps) p = last ps (with_comments q cs)) as ->.
    { clear. destruct ps; [reflexivity|]. cbn [last]. revert p0. induction ps; intros; [reflexivity|]. cbn [last]. apply IHps. }
    exact O3.
Qed.

(** Closing. *)
Lemma close_popened : forall t p b, open t p b -> pe_interval per = PNone ->
  close_open b =
    match t_addPosting t p with
    | (_, Some e) => (b, [], SErr e)
    | (t1, None) =>
        match t_close (if hasBudgetSource t1 then t1 else fst (t_addPosting t1 (Posting [] BudgetRootID None))) with
        | (_, Some e) => (b, [], SErr e)
        | (t', None) => (Builder periodicTransaction tx None None (b_prev b), [PerEntry (PTxn per t')], SOk)
        end
    end.
Proof.
  intros t p b (i & R & ->) I. unfold close_open. cbn [b_type b_ptxn].
  unfold endNormalTransaction. cbn [b_cur is_budget b_type b_ptxn pt_txn pt_period b_txn b_prev]. rewrite I. cbn [is_pnone andb].
  destruct (t_addPosting t p) as [t1 [e|]]; [reflexivity|]. destruct (hasBudgetSource t1); cbn [negb];
  destruct (t_close _) as [t' [e|]]; reflexivity.
Qed.
End Period.

Section Entry.
Variable U : unicode.

Lemma month_ascii : forall ys ms y m, numeral 4 ys y -> numeral 2 ms m -> Forall ascii (ys ++ [45] ++ ms).
Proof.
  intros ys ms y m (_ & DY & _) (_ & DM & _). repeat (apply Forall_app; split);
    try (repeat constructor; lia); (eapply Forall_impl; [|eassumption]); unfold digit, ascii; intros; lia.
Qed.

Lemma digits_unbroken : forall ys ms y m, numeral 4 ys y -> numeral 2 ms m ->
  unbroken (ys ++ [45] ++ ms) /\ trimmed (ys ++ [45] ++ ms).
Proof.
  intros ys ms y m (LY & DY & _) (LM & DM & _).
  assert (F : Forall (fun r => digit r \/ r = 45) (ys ++ [45] ++ ms)).
  { repeat (apply Forall_app; split); try (repeat constructor; lia); (eapply Forall_impl; [|eassumption]); intros; now left. }
  split; [split|split].
  - eapply Forall_impl; [|exact F]. intros r H. unfold digit in H. unfold breaks, isCommentIndicator, c_tab, c_semi, c_hash. lia.
  - clear - F. set (l := ys ++ [45] ++ ms) in *. clearbody l. induction F as [|r l H F IH]; [reflexivity|]. cbn [single_spaced]. rewrite IH, andb_true_r.
    apply negb_true_iff, andb_false_iff. left. unfold digit, c_space in *. lia.
  - destruct ys as [|c ys]; [discriminate|]. inversion DY as [|? ? H _]; subst. cbn [app hd]. unfold digit in H. unfold isSpace, between. lia.
  - unfold ends_nonspace. destruct ms as [|c ms] using rev_ind; [discriminate|]. rewrite !app_assoc, last_last.
    apply Forall_app in DM as [_ DM]. inversion DM as [|? ? H _]; subst. unfold digit, c_space in *. lia.
Qed.

Lemma period_lexed : forall hint k ys ms y m, numeral 4 ys y -> numeral 2 ms m ->
  lexLine U hint (126 :: spaces (1 + k) ++ ys ++ [45] ++ ms) = ([(periodItem, ys ++ [45] ++ ms)], None).
Proof.
  intros hint k ys ms y m NY NM. pose proof (month_ascii ys ms y m NY NM) as A. destruct (digits_unbroken ys ms y m NY NM) as [B T].
  set (w := ys ++ [45] ++ ms) in *. assert (NE : w <> []) by (unfold w; destruct ys; discriminate). clearbody w.
  assert (AL : Forall ascii (126 :: spaces (1 + k) ++ w)).
  { constructor; [unfold ascii; lia|]. apply Forall_app. split; [apply spaces_ascii|exact A]. }
  rewrite <- (encode_ascii _ AL), lex_encoded by (now apply ascii_valids).
  assert (lex_runes U hint (126 :: spaces (1 + k) ++ w) = period_line (spaces (1 + k) ++ w)) as -> by reflexivity.
  unfold period_line.
  assert (DS : forall j, drop_space (spaces j ++ w) = w).
  { induction j as [|j IH]; [|exact IH]. cbn [spaces repeat app]. destruct w as [|r w]; [congruence|]. destruct T as [T _]. cbn [hd] in T. now apply drop_space_id. }
  assert (SW : 1 <= space_width (spaces (1 + k) ++ w)).
  { cbn [Nat.add spaces repeat app space_width]. pose proof (space_width_nonneg (repeat 32 k ++ w)).
    replace (isSpace 32) with true by reflexivity. replace (32 =? c_tab) with false by reflexivity. replace (32 =? c_space) with true by reflexivity. lia. }
  destruct (Z.eqb_spec (space_width (spaces (1 + k) ++ w)) 0); [lia|]. rewrite DS, to_tab_clean by exact B. cbn [fst app].
  rewrite trimSpaceEnd_id by apply T. reflexivity.
Qed.

Lemma period_parsed : forall ys ms y m, numeral 4 ys y -> numeral 2 ms m -> 1 <= m <= 12 ->
  parsePeriod (ys ++ [45] ++ ms) = Period (Date y m 1) (Date y m 1) PNone 0.
Proof.
  intros ys ms y m NY NM RM. unfold parsePeriod. rewrite (encode_ascii _ (month_ascii ys ms y m NY NM)).
  assert (time_parse (layout_ym c_dash) (ys ++ [45] ++ ms) = Some (Date y m 1)) as ->; [|reflexivity].
  apply time_parse_ym. exists ys, ms. auto.
Qed.

Lemma period_read : forall k ys ms y m b, numeral 4 ys y -> numeral 2 ms m -> 1 <= m <= 12 -> closed b ->
  exists b' tx, flat_line U (126 :: spaces (1 + k) ++ ys ++ [45] ++ ms) b = (b', [], SOk) /\
    popened tx (Period (Date y m 1) (Date y m 1) PNone 0) (Txn zero_date NoState [] [] None [] []) newPosting b'.
Proof.
  intros k ys ms y m b NY NM RM C. unfold flat_line. rewrite (period_lexed [] k ys ms y m NY NM). cbn [flat_items flat_item].
  rewrite C. cbn [fbind]. unfold built, build. cbn [beginTransaction b_type buildPeriodicTransaction b_ptxn newPeriodicTransaction pt_txn].
  rewrite (period_parsed ys ms y m NY NM RM). cbn. eexists. eexists. split; [reflexivity|]. eexists. split; [|reflexivity]. cbn. tauto.
Qed.

(** An account name that can be written is not the fund's. *)
Lemma not_fund : forall ls ps, postings_written U ls ps -> Forall (fun p => po_account p <> BudgetRootID) ps.
Proof.
  induction 1 as [|l p ls cs ls' ps W F PW IH]; constructor; [|exact IH]. cbn [with_comments po_account].
  assert (A : spelt (account_text U) (po_account p)) by (destruct W; assumption). destruct A as (rs & V & (NE & Le & _) & ->).
  destruct rs as [|r rs]; [congruence|]. cbn [hd] in Le. intro X.
  assert (Q : r :: rs = BudgetRootID) by (apply encode_is_ascii in X; [exact X|exact V|]; clear; unfold BudgetRootID; cbn; repeat (apply Forall_cons; [unfold ascii; lia|]); apply Forall_nil).
  injection Q as -> _. clear - Le. vm_compute in Le. discriminate.
Qed.

Lemma has_no_fund : forall ps, Forall (fun p => po_account p <> BudgetRootID) ps ->
  existsb (fun p => str_eqb (po_account p) BudgetRootID) ps = false.
Proof.
  induction 1 as [|p ps N F IH]; [reflexivity|]. cbn [existsb]. rewrite IH, orb_false_r.
  destruct (str_eqb (po_account p) BudgetRootID) eqn:Q; [|reflexivity]. apply str_eqb_eq in Q. contradiction.
Qed.

Lemma none_elided : forall ps, Forall (fun p => ~ elided p) ps ->
  existsb (fun p => match po_amount p with None => true | _ => false end) ps = false.
Proof. induction 1 as [|p ps N F IH]; [reflexivity|]. cbn [existsb]. rewrite IH, orb_false_r. unfold elided in N. now destruct (po_amount p). Qed.

(** The transaction that is closed at the end of a budget entry. *)
Lemma to_close : forall before cs a after T, elided_ok T -> t_postings T = before ++ Posting cs a None :: after ->
  T = Txn zero_date NoState [] (t_postings T) (t_elided T) [] [] ->
  t_close T = (Txn zero_date NoState [] (before ++ Posting cs a (missing (before ++ after)) :: after) (Some (length before)) [] [], None).
Proof.
  intros before cs a after T W TP ET.
  assert (TE : t_elided T = Some (length before)).
  { apply W. exists (Posting cs a None). split; [|reflexivity]. rewrite TP, nth_error_app2 by lia. now rewrite Nat.sub_diag. }
  pose proof (total_one before cs a after) as T1. pose proof (commodity_one before cs a after) as C1.
  destruct (t_close_spec T W) as (Z & _ & CS). unfold missing. destruct (Z.eqb_spec (total (before ++ after) mod 2 ^ 64) 0) as [Q|Q].
  - rewrite Z; [|rewrite TP; unfold sum64; rewrite T1; now apply wrap64_zero_iff]. f_equal. rewrite ET, TE, TP. reflexivity.
  - assert (NZ : sum64 (t_postings T) <> 0).
    { rewrite TP. unfold sum64. rewrite T1. intro X. apply Q. now apply wrap64_zero_iff. }
    rewrite (CS NZ before (Posting cs a None) after TP eq_refl). f_equal. rewrite ET. unfold with_postings. cbn [t_date t_state t_payee t_elided t_headernote t_notes t_postings].
    rewrite TE, TP. unfold sum64. rewrite T1, C1, wrap64_opp. reflexivity.
Qed.

Lemma assignment_read : forall ls a pt b, assignment_written U ls a -> budgeted a pt -> closed b ->
  exists b', flat U (map FLine ls ++ [FLine []]) b = (b', [PerEntry pt], SOk) /\ closed b'.
Proof.
  intros ls a pt b AW B C. destruct AW as [k ys ms y m pl ps NY NM RM PW NE].
  destruct (period_read k ys ms y m b NY NM RM C) as (b1 & tx & E1 & O1).
  destruct (ppostings_read U tx _ pl ps PW b1 _ newPosting O1 eq_refl) as (b3 & E3 & O3).
  destruct (exists_last NE) as (init & p & EP).
  pose proof (written_accounts U pl ps PW) as FA. pose proof (not_fund pl ps PW) as NF.
  assert (removelast (newPosting :: ps) = newPosting :: init) as RL.
  { rewrite EP. change (newPosting :: init ++ [p]) with ((newPosting :: init) ++ [p]). apply removelast_last. }
  rewrite RL, EP, last_last in O3. cbn [fold_left] in O3. unfold push at 2 in O3. cbn [newPosting po_account] in O3.
  set (t0 := Txn zero_date NoState [] [] None [] []) in *.
  assert (FI : Forall (fun p => po_account p <> []) init) by (rewrite EP in FA; now apply Forall_app in FA).
  destruct (push_all init t0 FI (elided_ok_new zero_date NoState [] [] [])) as (W & TE & TP & TS).
  set (t1 := fold_left push init t0) in *. cbn [t0 seen t_elided orb t_postings app] in TP, TS.
  set (h := 126 :: spaces (1 + k) ++ ys ++ [45] ++ ms) in *. clearbody h.
  assert (flat U (map FLine (h :: pl) ++ [FLine []]) b = fbind (close_open b3) (fun b' => (b', [], SOk))) as FL.
  { cbn [map app flat]. rewrite E1. cbn [fbind]. rewrite flat_app by apply lines_no_stop. rewrite E3. cbn [fbind].
    assert (flat U [FLine []] b3 = fbind (close_open b3) (fun b' => (b', [], SOk))) as ->.
    { cbn [flat]. assert (flat_line U [] b3 = fbind (close_open b3) (fun b' => (b', [], SOk))) as -> by reflexivity.
      rewrite fbind_ret. rewrite fbind_ret. reflexivity. }
    rewrite fbind_ret. now destruct (close_open b3) as [[? ?] ?]. }
  rewrite fbind_ret in FL. rewrite FL. rewrite (close_popened tx _ t1 p b3 O3 eq_refl).
  destruct (t_addPosting t1 p) as [T eo] eqn:AP.
  assert (elided_ok T) as WT by (eapply elided_ok_add; eassumption).
  (* the postings read are those written *)
  assert (K : kept false ps = ps /\ ~ (elided p /\ Exists elided init)).
  { clear - B EP. remember (Assignment y m ps) as A eqn:EA. destruct B as [y' m' qs F|y' m' before cs ac after F]; injection EA as _ _ EA.
    - subst qs. split; [now apply kept_all|]. intros [El _]. rewrite EP in F. apply Forall_app in F as [_ F]. inversion F. contradiction.
    - rewrite <- EA in *. split; [now apply kept_one|]. exact (one_elided before _ after init p F EP). }
  destruct K as [K NT].
  assert (X : eo = None /\ T = Txn zero_date NoState [] ps (t_elided T) [] []).
  { unfold t_addPosting in AP. rewrite <- K, EP, kept_app. cbn [orb kept]. unfold seen in TS. unfold elided in NT at 1. rewrite TP in AP. rewrite TE in AP.
    cbn [t_date t_state t_payee t_headernote t_notes t0] in AP.
    destruct (po_amount p) as [am|] eqn:PA.
    - injection AP as <- <-. split; reflexivity.
    - destruct (existsb _ init) eqn:EX; [exfalso; apply NT; split; [reflexivity|now apply existsb_elided]|].
      destruct (t_elided t1) eqn:TT; [discriminate|]. cbn [t_elided] in AP. injection AP as <- <-. split; reflexivity. }
  destruct X as [-> ET]. assert (TPS : t_postings T = ps) by (rewrite ET; reflexivity).
  unfold hasBudgetSource. rewrite TPS, has_no_fund by exact NF.
  set (T2 := fst (t_addPosting T (Posting [] BudgetRootID None))).
  assert (Y : exists before cs a after, pt = made_up y m before cs a after /\ t_postings T2 = before ++ Posting cs a None :: after /\
     T2 = Txn zero_date NoState [] (t_postings T2) (t_elided T2) [] [] /\ elided_ok T2).
  { assert (W2 : elided_ok T2) by (unfold T2; eapply elided_ok_add; [exact WT|apply surjective_pairing]).
    remember (Assignment y m ps) as A eqn:EA. destruct B as [y' m' qs F|y' m' before cs ac after F]; injection EA as -> -> EA.
    - exists ps, [], (lit "_budget_root_"), []. subst qs. split; [reflexivity|].
      assert (TN : t_elided T = None).
      { destruct (t_elided T) as [i|] eqn:TE2; [|reflexivity]. exfalso. destruct (proj2 (WT i) TE2) as (q & N & Q).
        rewrite TPS in N. apply nth_error_In in N. rewrite Forall_forall in F. now apply (F q). }
      assert (Q : T2 = Txn zero_date NoState [] (ps ++ [Posting [] BudgetRootID None]) (Some (length ps)) [] []).
      { unfold T2, t_addPosting. cbn [po_amount]. rewrite TN. cbn [fst]. rewrite TPS. rewrite ET. reflexivity. }
      split; [rewrite Q; reflexivity|]. split; [rewrite Q; reflexivity|exact W2].
    - exists before, cs, ac, after. split; [reflexivity|].
      assert (TN : t_elided T = Some (length before)).
      { apply WT. exists (Posting cs ac None). split; [|reflexivity]. rewrite TPS, <- EA. rewrite nth_error_app2 by lia. now rewrite Nat.sub_diag. }
      assert (Q : T2 = T) by (unfold T2, t_addPosting; cbn [po_amount]; rewrite TN; reflexivity).
      rewrite Q, TPS. split; [now rewrite EA|]. split; [exact ET|exact WT]. }
  destruct Y as (before & cs & ac & after & -> & P2 & E2 & W2). rewrite (to_close before cs ac after T2 W2 P2 E2).
  eexists. split; [reflexivity|]. reflexivity.
Qed.

Lemma assignment_not_included : forall hint ls a, assignment_written U ls a -> Forall (fun l => included U hint l = None) ls.
Proof.
  assert (RK : forall hint ls cs, Forall2 remark_written ls cs -> Forall (fun l => included U hint l = None) ls).
  { intros hint ls cs H. induction H as [|l n ls cs R F IH]; constructor; [|assumption].
    destruct (remark_lexed U hint l n R) as (rs & E & _). unfold included. now rewrite E. }
  intros hint ls a AW. destruct AW as [k ys ms y m pl ps NY NM RM PW NE]. constructor.
  - unfold included. now rewrite (period_lexed hint k ys ms y m NY NM).
  - clear NE. induction PW as [|l q ls cs ls' ps W F PW IH]; constructor.
    + destruct (posting_lexed U hint l q W) as (a & am & E & _). unfold included. rewrite E.
      unfold posting_items. destruct am as [[? ?]|]; reflexivity.
    + apply Forall_app. split; eauto.
Qed.
End Entry.
