(** * C117: what the reports do not look at; C118: transfers inside an account *)
From Verif Require Import Base BaseFacts Utf8 Unicode GoTime Strconv Display Journal JournalFacts StreamFacts Lexer Parser ParserFacts Account Reporting Cmd Spec TextSpec
  TreeSpec TreeFacts ReportSpec ReportFacts CmdSpec CmdFacts BalanceFacts FlatSpec Sample PropsParser PropsCmd PropsBalance PropsPrint PropsReread PropsAgain PropsWhere PropsConcat PropsJoin PropsApart.

(** ** C117 *)

(** The same date, and the same accounts and amounts in the same order; marks,
    payees, notes, comments may differ. *)
Definition same_books (t t' : transaction) : Prop :=
  t_date t' = t_date t /\ map plainly (t_postings t') = map plainly (t_postings t).
Definition same_clock (E E' : env) : Prop :=
  (forall n, e_year E' n = e_year E n) /\ (forall n, e_tomorrow E' n = e_tomorrow E n) /\ (forall d, e_local E' d = e_local E d).

Lemma books_within : forall E E' O n d, same_clock E E' -> within E O n d -> within E' O n d.
Proof.
  intros E E' O n d (Y & T & L) [A B]. split; [destruct A as [A|(N & Cu & b & M & I)]; [now left|right]|destruct B as [[Cu H]|[B|(Cu & N & b & M & I)]]; [left|right; now left|right; right]].
  - split; [exact N|]. split; [exact Cu|]. exists b. now rewrite Y, L.
  - split; [exact Cu|]. now rewrite T.
  - split; [exact Cu|]. split; [exact N|]. exists b. now rewrite Y, L.
Qed.
Lemma clock_sym : forall E E', same_clock E E' -> same_clock E' E.
Proof. intros E E' (Y & T & L). repeat split; intros; symmetry; auto. Qed.

Definition same_list (us us' : list used) : Prop := Forall2 (fun u u' => same_books (u_txn u) (u_txn u') /\ u_n u' = u_n u) us us'.
Lemma books_picks : forall E E' O us us' sel sel', same_clock E E' -> same_list us us' ->
  picks E O [] us sel -> picks E' O [] us' sel' -> map plainly (taken sel') = map plainly (taken sel).
Proof.
  intros E E' O us us' sel sel' C S. revert sel sel'. induction S as [|u u' us us' [[D B] N] S IH]; intros sel sel' P P'.
  - inversion P. inversion P'. reflexivity.
  - inversion P as [|? ? ? No Q|? ? ? ps W Hh Pm Wh Q]; subst; inversion P' as [|? ? ? No' Q'|? ? ? ps' W' Hh' Pm' Wh' Q']; subst.
    + eauto.
    + exfalso. destruct No as [No|No]; [|discriminate]. apply No. rewrite <- D, <- N. exact (books_within E' E O _ _ (clock_sym _ _ C) W').
    + exfalso. destruct No' as [No|No]; [|discriminate]. apply No. rewrite D, N. exact (books_within E E' O _ _ C W).
    + unfold taken. cbn [flat_map snd]. rewrite !map_app. f_equal; [|exact (IH _ _ Q Q')]. now rewrite (Wh (or_introl eq_refl)), (Wh' (or_introl eq_refl)).
Qed.
Lemma books_good : forall E E' O us us', same_clock E E' -> same_list us us' ->
  Forall (fun u => good_flags E O (u_n u)) us -> Forall (fun u => good_flags E' O (u_n u)) us'.
Proof.
  intros E E' O us us' (Y & _ & _) S. induction S as [|u u' us us' [_ N] S IH]; intro F; constructor; inversion_clear F as [|? ? G F']; auto.
  rewrite N. destruct G as [G1 G2]. unfold good_flags, good_flag in *. now rewrite !Y.
Qed.

(** Two journals, read on the same days: balance without arguments, and accounts with any. *)
Theorem C117_ignored : forall E E' O, sane_clock E -> orders E -> orders E' -> same_clock E E' ->
  same_list (txns 0 (fst (stream E O))) (txns 0 (fst (stream E' O))) -> snd (stream E' O) = SOk ->
  (o_args O = [] -> r_status (balance_cmd E O) = SOk -> balance_cmd E' O = balance_cmd E O) /\
  (forall fs, filters_for E (o_args O) fs -> filters_for E' (o_args O) fs -> (forall r s, e_re_match E' r s = e_re_match E r s) ->
     CmdSpec.readable E O -> accounts_cmd E' O = accounts_cmd E O).
Proof.
  intros E E' O C Or Or' Cl S Ok'. assert (C' : sane_clock E') by (intro n; rewrite (proj1 Cl n); apply C). split.
  - intros A Ok. assert (F : filters_for E (o_args O) []) by (rewrite A; split; constructor). assert (F' : filters_for E' (o_args O) []) by (rewrite A; split; constructor).
    destruct (proj1 (proj1 (C61_balance E O [] C Or F)) Ok) as [R (sel & P & Pr)].
    assert (R' : CmdSpec.readable E' O) by (split; [exact Ok'|exact (books_good E E' O _ _ Cl S (proj2 R))]).
    assert (X : exists sel', picks E' O [] (txns 0 (fst (stream E' O))) sel').
    { clear - S P Cl. revert sel P. induction S as [|u u' us us' [[D B] N] S IH]; intros sel P; [exists []; constructor|].
      inversion P as [|? ? ? No Q|? ? ? ps W Hh Pm Wh Q]; subst; destruct (IH _ Q) as [sel' Q'].
      - exists sel'. apply PickNot; [|exact Q']. left. destruct No as [No|No]; [|discriminate]. intro W. apply No. rewrite D, N in W. exact (books_within E' E O _ _ (clock_sym _ _ Cl) W).
      - exists ((u', t_postings (u_txn u')) :: sel'). apply PickIt; auto. rewrite D, N. exact (books_within E E' O _ _ Cl W). }
    destruct X as [sel' P']. eapply (balance_equal E O sel E' O sel'); eauto. eapply books_picks; eauto.
  - intros fs F F' Re R.
    assert (R' : CmdSpec.readable E' O) by (split; [exact Ok'|exact (books_good E E' O _ _ Cl S (proj2 R))]).
    destruct (C40_accounts E O fs C Or F) as [K _]. destruct (K R) as (sel & names & P & Q & A & I).
    destruct (C40_accounts E' O fs C' Or' F') as [K' _]. destruct (K' R') as (sel' & names' & P' & Q' & A' & I').
    rewrite Q, Q'. do 2 f_equal. apply ascending_same; auto. intro x. rewrite I, I'.
    assert (U : uses sel' x <-> uses sel x).
    { clear - S P P' Cl. revert sel sel' P P'. induction S as [|u u' us us' [[D B] N] S IH]; intros sel sel' P P'.
      - inversion P. inversion P'. split; intros (? & ? & [] & _).
      - assert (Hb : (exists p, In p (t_postings (u_txn u')) /\ po_account p = x) <-> (exists p, In p (t_postings (u_txn u)) /\ po_account p = x)).
        { assert (M : map po_account (t_postings (u_txn u')) = map po_account (t_postings (u_txn u))).
          { apply (f_equal (map po_account)) in B. rewrite !map_map in B. exact B. }
          assert (G : forall l, (exists p, In p l /\ po_account p = x) <-> In x (map po_account l)) by (intro l; rewrite in_map_iff; split; intros (p & ? & ?); eauto).
          now rewrite !G, M. }
        assert (Cn : forall v l, uses (v :: l) x <-> (exists p, In p (t_postings (u_txn v)) /\ po_account p = x) \/ uses l x).
        { intros v l. split.
          - intros (w & p & [<-|J] & Ip & Ea); [left; eauto|right; exists w, p; auto].
          - intros [(p & Ip & Ea)|(w & p & J & Ip & Ea)]; [exists v, p; split; [now left|auto]|exists w, p; split; [now right|auto]]. }
        inversion P as [|? ? ? No Q|? ? ? W Q]; subst; inversion P' as [|? ? ? No' Q'|? ? ? W' Q']; subst; specialize (IH _ _ Q Q').
        + exact IH.
        + exfalso. apply No. rewrite D, N in W'. exact (books_within E' E O _ _ (clock_sym _ _ Cl) W').
        + exfalso. apply No'. rewrite D, N. exact (books_within E E' O _ _ Cl W).
        + rewrite !Cn. tauto. }
    rewrite U. split; (intros [Hu Hf]; split; [exact Hu|]); (destruct Hf as [Hf|(f & If & Hf)]; [now left|right; exists f; split; [exact If|]]); [rewrite <- Re|rewrite Re]; exact Hf.
Qed.

Definition noisy_text : str :=
  lit "; some remark" ++ [10] ++ lit "2021-03-02 ! Somebody else  ; why" ++ [10] ++ lit "    x:y    $1  ; this" ++ [10] ++ lit "    z" ++ [10; 10] ++
  lit "2021-03-01 * Me" ++ [10] ++ lit "    ; more" ++ [10] ++ lit "    x    $3.50" ++ [10] ++ lit "    ; and more" ++ [10] ++ lit "    z    $-3.50" ++ [10].
Example C117_example : let E := env1 [(lit "j", text_same)] in let E' := env1 [(lit "j", noisy_text)] in let O := opts0 "j" in
  sane_clock E /\ orders E /\ same_clock E E' /\ same_list (txns 0 (fst (stream E O))) (txns 0 (fst (stream E' O))) /\
  snd (stream E' O) = SOk /\ r_status (balance_cmd E O) = SOk /\ filters_for E (o_args O) [] /\ CmdSpec.readable E O /\
  payees_cmd E' O <> payees_cmd E O /\ print_cmd E' O <> print_cmd E O.
Proof.
  cbn zeta. split; [apply env1_clock|]. split; [apply env1_orders|]. split; [repeat split|].
  split; [vm_compute; repeat constructor|]. split; [vm_compute; reflexivity|]. split; [vm_compute; reflexivity|]. split; [split; constructor|].
  split; [apply readable_noflags; vm_compute; reflexivity|]. split; vm_compute; discriminate.
Qed.

(** ** C118 *)

(** [r] is not strictly below [q]. *)
Definition outside (q r : list str) : bool := negb (prefixb q r) || prefixb r q.

Lemma prefix_comp : forall q r (c : list str), prefixb q c = true -> prefixb r c = true -> prefixb q r = true \/ prefixb r q = true.
Proof.
  induction q as [|x q IH]; intros [|y r] [|z c] A B; cbn in *; auto; try discriminate.
  apply andb_true_iff in A as [Ax A]. apply andb_true_iff in B as [By B]. apply str_eqb_eq in Ax, By. subst. rewrite str_eqb_refl. cbn.
  destruct (IH r c A B) as [->| ->]; auto.
Qed.
Lemma prefixb_trans : forall a b c, prefixb a b = true -> prefixb b c = true -> prefixb a c = true.
Proof. intros a b c A B. apply prefixb_iff in A as [u ->]. apply prefixb_iff in B as [v ->]. apply prefixb_iff. exists (u ++ v). now rewrite app_assoc. Qed.

Section Inside.
Variable q : list str.
Variables ps new : list posting.
Hypothesis Inside : Forall (fun p => below q p = true) new.
Hypothesis Zero : zero64 (total new).
Hypothesis Named : exists p, In p ps /\ below q p = true /\ commodity_of p <> [].

Lemma inside_cases : forall r, outside q r = true ->
  (prefixb r q = true /\ filter (below r) new = new) \/ (prefixb q r = false /\ filter (below r) new = []).
Proof.
  intros r O. unfold outside in O. apply orb_true_iff in O. destruct (prefixb r q) eqn:R.
  - left. split; [reflexivity|]. clear - Inside R. revert Inside; generalize new; intros l0 F0; induction F0 as [|p l B _ IH]; [reflexivity|]. cbn [filter].
    replace (below r p) with true by (symmetry; exact (prefixb_trans r q _ R B)). now rewrite IH.
  - right. destruct O as [O|O]; [|discriminate]. apply negb_true_iff in O. split; [exact O|].
    clear - Inside R O. revert Inside; generalize new; intros l0 F0; induction F0 as [|p l B _ IH]; [reflexivity|]. cbn [filter]. destruct (below r p) eqn:K; [|exact IH].
    destruct (prefix_comp q r _ B K); congruence.
Qed.
Lemma inside_total : forall r, outside q r = true -> wrap64 (total (filter (below r) (ps ++ new))) = wrap64 (total (filter (below r) ps)).
Proof.
  intros r O. rewrite filter_app. destruct (inside_cases r O) as [[_ ->]|[_ ->]]; [|now rewrite app_nil_r].
  rewrite total_app. unfold zero64 in Zero. unfold wrap64.
  replace (total (filter (below r) ps) + total new + two63) with (total (filter (below r) ps) + two63 + total new) by lia.
  rewrite Z.add_mod, Zero, Z.add_0_r, Z.mod_mod by discriminate. reflexivity.
Qed.
Lemma inside_first : forall r, outside q r = true -> first_commodity (filter (below r) (ps ++ new)) = first_commodity (filter (below r) ps).
Proof.
  intros r O. rewrite filter_app. destruct (inside_cases r O) as [[R ->]|[_ ->]]; [|now rewrite app_nil_r].
  destruct Named as (p & I & B & N).
  assert (J : In p (filter (below r) ps)) by (apply filter_In; split; [exact I|exact (prefixb_trans r q _ R B)]).
  revert J. generalize (filter (below r) ps). clear - N. intros l J. unfold first_commodity, named_commodities. rewrite map_app, filter_app.
  induction l as [|x l IH]; [destruct J|]. cbn [map filter]. destruct (commodity_of x) eqn:Cx; [|reflexivity].
  destruct J as [->|J]; [congruence|]. exact (IH J).
Qed.
Lemma inside_line : forall r, outside q r = true -> row_line (ps ++ new) r = row_line ps r.
Proof. intros r O. unfold row_line. now rewrite (inside_total r O), (inside_first r O). Qed.
Lemma outside_up : forall r r', outside q r = true -> prefix r' r -> outside q r' = true.
Proof.
  intros r r' O P. apply prefixb_iff in P. unfold outside in *. apply orb_true_iff in O. apply orb_true_iff. destruct O as [O|O]; [left|right].
  - apply negb_true_iff. apply negb_true_iff in O. destruct (prefixb q r') eqn:K; [|reflexivity]. rewrite (prefixb_trans _ _ _ K P) in O. discriminate.
  - exact (prefixb_trans _ _ _ P O).
Qed.
Lemma inside_shown : forall z r, outside q r = true -> (shown z (ps ++ new) r <-> shown z ps r).
Proof.
  intros z r O.
  assert (X : (exists p, In p (ps ++ new) /\ prefix r (components p)) <-> (exists p, In p ps /\ prefix r (components p))).
  { split; intros (p & I & P); [|exists p; split; [apply in_app_iff; now left|exact P]].
    apply in_app_iff in I as [I|I]; [eauto|]. destruct (inside_cases r O) as [[R _]|[_ E]].
    - destruct Named as (p0 & I0 & B0 & _). exists p0. split; [exact I0|]. apply prefixb_iff. exact (prefixb_trans r q _ R B0).
    - exfalso. assert (J : In p (filter (below r) new)) by (apply filter_In; split; [exact I|]; unfold below; now apply prefixb_iff). rewrite E in J. destruct J. }
  unfold shown. rewrite X. split; (intros [A B]; split; [exact A|]); (destruct B as [B|B]; [now left|right]); intros r' N P;
    specialize (B r' N P); rewrite inside_total in * by exact (outside_up r r' O P); exact B.
Qed.
End Inside.

(** The rows for accounts not strictly below [q] are the same, and so is the total. *)
Definition same_outside (q : list str) (zero : bool) (ps ps' : list posting) (out out' : list str) : Prop :=
  exists rows rows', StronglySorted path_lt rows /\ StronglySorted path_lt rows' /\
    (forall r, In r rows <-> r <> [] /\ shown zero ps r) /\
    filter (outside q) rows' = filter (outside q) rows /\
    (forall r, outside q r = true -> row_line ps' r = row_line ps r) /\
    out = complaints [] ps ++
      [unlines (map (row_line ps) rows) ++ [10]; lit "--------------------" ++ [10]; column [] (wrap64 (total ps)) ++ [10]] /\
    out' = complaints [] ps' ++
      [unlines (map (row_line ps') rows') ++ [10]; lit "--------------------" ++ [10]; column [] (wrap64 (total ps)) ++ [10]].

(** A journal to which transactions are appended that only move amounts between
    [q] and accounts below it. *)
Theorem C118_inside : forall E O p a b q s1 s2 s, journal_path E O = Some p -> line_start a -> steady E -> sane_clock E -> orders E ->
  o_args O = [] -> o_flatten O = false -> o_collapse O = false ->
  picks (holding E p a) O [] (txns 0 (fst (stream (holding E p a) O))) s1 -> picks (holding E p b) O [] (txns 0 (fst (stream (holding E p b) O))) s2 ->
  picks (holding E p (a ++ LF :: b)) O [] (txns 0 (fst (stream (holding E p (a ++ LF :: b)) O))) s ->
  r_status (balance_cmd (holding E p (a ++ LF :: b)) O) = SOk ->
  Forall (fun x => below q x = true) (taken s2) -> (exists x, In x (taken s1) /\ below q x = true /\ commodity_of x <> []) ->
  r_status (balance_cmd (holding E p a) O) = SOk /\
  same_outside q (o_show_zero O) (taken s1) (taken s1 ++ taken s2) (r_out (balance_cmd (holding E p a) O)) (r_out (balance_cmd (holding E p (a ++ LF :: b)) O)).
Proof.
  intros E O p a b q s1 s2 s J St Sd C Or A Ff Fc P1 P2 P Ok In2 Nm.
  assert (F : forall x, filters_for (holding E p x) (o_args O) []) by (intro x; rewrite A; split; constructor).
  pose proof (proj1 (proj1 (C61_balance (holding E p (a ++ LF :: b)) O [] C Or (F _))) Ok) as [R (z & Pz & Hz)].
  assert (Ok1 : r_status (balance_cmd (holding E p a) O) = SOk).
  { apply (proj1 (C61_balance (holding E p a) O [] C Or (F _))). pose proof (proj1 (joined_readable E O p a b J St Sd) R) as [R1 _].
    split; [exact R1|]. exists s1. split; [exact P1|].
    destruct (joined_picks E O p a b J St Sd [] s1 s2 z (proj1 R) P1 P2 Pz) as [_ Pm]. apply (Permutation_Forall Pm) in Hz. now apply Forall_app in Hz. }
  split; [exact Ok1|].
  assert (T : taken s = taken s1 ++ taken s2).
  { destruct (joined_picks E O p a b J St Sd [] s1 s2 s (proj1 R) P1 P2 P) as [Sl _].
    now rewrite (taken_whole _ _ _ _ P), (taken_whole _ _ _ _ P1), (taken_whole _ _ _ _ P2), Sl, flat_map_app. }
  assert (Z : zero64 (total (taken s2))).
  { eapply taken_balanced; [exact P2|]. intros u I. apply txns_in in I. pose proof (stream_balanced (holding E p b) O) as B. rewrite Forall_forall in B.
    apply B in I. apply I. }
  assert (One : forall E O sel, sane_clock E -> orders E -> filters_for E (o_args O) [] -> o_flatten O = false -> o_collapse O = false -> r_status (balance_cmd E O) = SOk ->
    picks E O [] (txns 0 (fst (stream E O))) sel ->
    exists rows, StronglySorted path_lt rows /\ (forall r, In r rows <-> r <> [] /\ shown (o_show_zero O) (taken sel) r) /\
      r_out (balance_cmd E O) = complaints [] (taken sel) ++
      [unlines (map (row_line (taken sel)) rows) ++ [10]; lit "--------------------" ++ [10]; column [] (wrap64 (total (taken sel))) ++ [10]]).
  { clear. intros E O sel C Or F Ff Fc Ok P. destruct (C61_rows E O [] C Or F Ff Fc Ok) as (sel1 & rows & P1 & Io & I & Q).
    assert (T : taken sel1 = taken sel).
    { now rewrite (taken_whole _ _ _ _ P1), (taken_whole _ _ _ _ P), (picks_selected _ _ _ _ _ _ P1 P). }
    rewrite T in *. exists (map fst rows). split; [exact Io|]. split.
    - intro r. rewrite in_map_iff. split.
      + intros ([r0 d] & <- & Ir). apply I in Ir as (N & S & _). auto.
      + intros [N S]. destruct (holds_some (taken sel) r) as [d Hd]. exists (r, d). split; [reflexivity|]. apply I. auto.
    - rewrite Q, map_map. reflexivity. }
  destruct (One (holding E p a) O s1 C Or (F a) Ff Fc Ok1 P1) as (rows & So & I & Q).
  destruct (One (holding E p (a ++ LF :: b)) O s C Or (F _) Ff Fc Ok P) as (rows' & So' & I' & Q'). rewrite T in I', Q'.
  exists rows, rows'. split; [exact So|]. split; [exact So'|]. split; [exact I|]. split; [|split; [|split; [exact Q|]]].
  - apply paths_same; [now apply sorted_filter|now apply sorted_filter|]. intro r. rewrite !filter_In, I, I'. split; intros [[N S] U]; (split; [split; [exact N|]|exact U]).
    + exact (proj1 (inside_shown q (taken s1) (taken s2) In2 Z Nm (o_show_zero O) r U) S).
    + exact (proj2 (inside_shown q (taken s1) (taken s2) In2 Z Nm (o_show_zero O) r U) S).
  - intros r U. exact (inside_line q (taken s1) (taken s2) In2 Z Nm r U).
  - rewrite Q'. do 5 f_equal. pose proof (inside_total q (taken s1) (taken s2) In2 Z [] ltac:(unfold outside; now rewrite orb_true_r)) as X.
    assert (Al : forall l, filter (below []) l = l) by (induction l as [|x l IH]; [reflexivity|]; cbn; now rewrite IH).
    rewrite !Al in X. now rewrite X.
Qed.

Definition inside_text : str := lit "2021-03-05 C" ++ [10] ++ lit "    x:w    $-2" ++ [10] ++ lit "    x:y    $2" ++ [10].
Example C118_example : let E := env1 [] in let O := opts_zero [] [] in let at_ x := holding E (lit "j") x in
  journal_path E O = Some (lit "j") /\ line_start text_same /\ steady E /\ sane_clock E /\ orders E /\
  (exists s1 s2 s, picks (at_ text_same) O [] (txns 0 (fst (stream (at_ text_same) O))) s1 /\ picks (at_ inside_text) O [] (txns 0 (fst (stream (at_ inside_text) O))) s2 /\
     picks (at_ (text_same ++ LF :: inside_text)) O [] (txns 0 (fst (stream (at_ (text_same ++ LF :: inside_text)) O))) s /\
     length (taken s2) = 2%nat /\ Forall (fun q => below [lit "x"] q = true) (taken s2) /\
     exists x, In x (taken s1) /\ below [lit "x"] x = true /\ commodity_of x <> []) /\
  balance_cmd (at_ text_same) O =
    Outcome ((lit "               $4.50  x" ++ [10] ++ lit "               $1.00    y" ++ [10] ++ lit "              $-4.50  z" ++ [10]) :: ending) SOk /\
  balance_cmd (at_ (text_same ++ LF :: inside_text)) O =
    Outcome ((lit "               $4.50  x" ++ [10] ++ lit "              $-2.00    w" ++ [10] ++ lit "               $3.00    y" ++ [10] ++ lit "              $-4.50  z" ++ [10]) :: ending) SOk.
Proof.
  cbn zeta. split; [reflexivity|]. split; [right; eexists; unfold text_same; rewrite !app_assoc; reflexivity|]. split; [intro n; split; reflexivity|].
  split; [apply env1_clock|]. split; [apply env1_orders|]. split; [|split; vm_compute; reflexivity].
  set (u1 := txns 0 (fst (stream (holding (env1 []) (lit "j") text_same) (opts_zero [] [])))).
  set (u2 := txns 0 (fst (stream (holding (env1 []) (lit "j") inside_text) (opts_zero [] [])))).
  set (u3 := txns 0 (fst (stream (holding (env1 []) (lit "j") (text_same ++ LF :: inside_text)) (opts_zero [] [])))).
  vm_compute in u1, u2, u3.
  exists (map (fun u => (u, t_postings (u_txn u))) u1), (map (fun u => (u, t_postings (u_txn u))) u2), (map (fun u => (u, t_postings (u_txn u))) u3).
  subst u1 u2 u3. cbn [map].
  split; [|split; [|split; [|split; [reflexivity|split; [repeat constructor|eexists; split; [left; reflexivity|split; [reflexivity|discriminate]]]]]]];
    repeat (apply PickIt; [apply plain_within; [repeat split|vm_compute; discriminate]|reflexivity|reflexivity|reflexivity|]); apply PickNone.
Qed.
