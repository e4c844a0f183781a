(** * Properties of code no command reaches: C65 to C69 *)
From Verif Require Import Base BaseFacts Utf8 Unicode GoTime Strconv Display Journal Account Reporting Lexer Cmd Unused Main
  TextSpec DateFacts AmountFacts TreeSpec TreeFacts CmdSpec CmdFacts Sample PropsCmd PropsTree.

(** ** C65: the ways of matching agree *)

Lemma fold_orb : forall A (h : A -> bool) l b, fold_left (fun m n => m || h n) l b = b || existsb h l.
Proof.
  intros A h. induction l as [|x l IH]; intro b; cbn; [now rewrite orb_false_r|]. now rewrite IH, orb_assoc.
Qed.

(** A transaction matches a filter exactly when its payee does, one of its notes
    does, or one of its postings. *)
Theorem C65_how : forall m f t, let '(payee, note, ps) := matchesTransactionHow m f t in
  matchesTransaction m f t = true <-> payee = true \/ note = true \/ ps <> [].
Proof.
  intros m [r ty] t.
  assert (X : forall h : posting -> bool, map fst (filter (fun ip => h (snd ip)) (combine (seq 0 (length (t_postings t))) (t_postings t))) <> [] <->
                existsb h (t_postings t) = true).
  { intro h. generalize 0%nat. induction (t_postings t) as [|p ps IH]; intro n; cbn; [split; [contradiction|discriminate]|].
    destruct (h p); cbn; [split; [reflexivity|discriminate]|apply IH]. }
  unfold matchesTransactionHow, matchesTransaction. cbn [f_type f_regex].
  pose proof (X (posting_matches m (Filter r ty))) as Y. destruct ty; unfold posting_matches in Y at 2; cbn [f_type f_regex] in *; cbv beta in Y.
  - rewrite Y. split; [auto|]. intros [?|[?|?]]; [discriminate..|assumption].
  - rewrite Y. split; [auto|]. intros [?|[?|K]]; [assumption|discriminate|]. exfalso. clear - K. induction (t_postings t); cbn in K; [discriminate|auto].
  - rewrite Y, fold_orb, !orb_true_iff. intuition discriminate.
Qed.

(** In terms of the specification. *)
Lemma existsb_orb : forall A (g h : A -> bool) l, existsb (fun x => g x || h x) l = existsb g l || existsb h l.
Proof. intros A g h. induction l as [|x l IH]; cbn; [reflexivity|]. rewrite IH. destruct (g x), (h x), (existsb g l); reflexivity. Qed.
Lemma existsb_false : forall A (l : list A), existsb (fun _ => false) l = false.
Proof. intros A. induction l; cbn; auto. Qed.
Lemma matches_hits : forall E fs t, existsb (fun f => matchesTransaction (e_re_match E) f t) fs =
  whole_hit E fs t || existsb (posting_hit E fs) (t_postings t).
Proof.
  intros E fs t. induction fs as [|[r ty] fs IH]; [cbn; symmetry; apply existsb_false|].
  cbn [existsb]. rewrite IH. unfold whole_hit at 2. cbn [existsb]. fold (whole_hit E fs t).
  assert (X : existsb (posting_hit E (Filter r ty :: fs)) (t_postings t) =
    existsb (posting_hit E [Filter r ty]) (t_postings t) || existsb (posting_hit E fs) (t_postings t)).
  { rewrite <- existsb_orb. clear. induction (t_postings t) as [|p ps IHp]; [reflexivity|]. cbn [existsb]. rewrite IHp. apply f_equal2; [|reflexivity].
    unfold posting_hit. cbn [existsb]. now rewrite orb_false_r. }
  rewrite X. unfold matchesTransaction. cbn [f_type f_regex].
  assert (Y : forall g, (forall p, posting_hit E [Filter r ty] p = g p) -> existsb (posting_hit E [Filter r ty]) (t_postings t) = existsb g (t_postings t)).
  { intros g H. clear - H. induction (t_postings t) as [|p ps IHp]; [reflexivity|]. cbn [existsb]. now rewrite H, IHp. }
  destruct ty.
  - rewrite (Y (fun p => e_re_match E r (po_account p))); [|intro p; unfold posting_hit; cbn; apply orb_false_r].
    destruct (existsb (fun p => e_re_match E r (po_account p)) (t_postings t)), (whole_hit E fs t), (existsb (posting_hit E fs) (t_postings t)); reflexivity.
  - rewrite (Y (fun _ => false)), existsb_false; [|reflexivity]. now rewrite orb_false_l, orb_assoc.
  - rewrite (Y (fun p => existsb (e_re_match E r) (po_comments p))); [|intro p; unfold posting_hit; cbn; apply orb_false_r].
    destruct (e_re_match E r (t_headernote t)), (existsb (e_re_match E r) (t_notes t)), (existsb (fun p => existsb (e_re_match E r) (po_comments p)) (t_postings t)),
      (whole_hit E fs t), (existsb (posting_hit E fs) (t_postings t)); reflexivity.
Qed.

(** [MatchesRegex] on good arguments selects what the commands select. *)
Theorem C65_regex : forall E args fs t, filters_for E args fs ->
  matchesRegex (e_unicode E) (e_re_ok E) (e_re_match E) t args = POk (hit E fs t).
Proof.
  intros E args fs t F. apply makeFilters_spec in F.
  assert (L : forall args fs, makeFilters E args = POk fs ->
    matchesRegex_loop (e_unicode E) (e_re_ok E) (e_re_match E) t args = POk (existsb (fun f => matchesTransaction (e_re_match E) f t) fs)).
  { clear. induction args as [|a args IH]; intros fs H; cbn in *; [now inversion H|].
    destruct (newFilter (e_unicode E) (e_re_ok E) a) as [f| |]; try discriminate.
    destruct (makeFilters E args) as [fs'| |]; try discriminate. inversion H; subst. cbn. rewrite (IH fs' eq_refl).
    now destruct (matchesTransaction (e_re_match E) f t). }
  destruct args as [|a args]; [inversion F; reflexivity|]. unfold matchesRegex. rewrite (L _ _ F), matches_hits.
  destruct fs; [|reflexivity]. cbn in F. destruct (newFilter _ _ a); [|discriminate..]. destruct (makeFilters E args); discriminate.
Qed.

(** With a bad argument it may still answer: the first argument that matches or is
    bad decides. *)
Theorem C65_regex_bad : forall E good fs bad rest t, filters_for E good fs ->
  (forall f, newFilter (e_unicode E) (e_re_ok E) bad <> POk f) ->
  (good <> [] /\ hit E fs t = true <-> matchesRegex (e_unicode E) (e_re_ok E) (e_re_match E) t (good ++ bad :: rest) = POk true) /\
  matchesRegex (e_unicode E) (e_re_ok E) (e_re_match E) t (good ++ bad :: rest) <> POk false.
Proof.
  intros E good fs bad rest t F B. apply makeFilters_spec in F.
  assert (M : forall l, matchesRegex (e_unicode E) (e_re_ok E) (e_re_match E) t (l ++ bad :: rest) =
    matchesRegex_loop (e_unicode E) (e_re_ok E) (e_re_match E) t (l ++ bad :: rest)) by (intros [|? ?]; reflexivity).
  rewrite M. clear M.
  assert (L : forall good fs, makeFilters E good = POk fs ->
    if existsb (fun f => matchesTransaction (e_re_match E) f t) fs
    then matchesRegex_loop (e_unicode E) (e_re_ok E) (e_re_match E) t (good ++ bad :: rest) = POk true
    else forall b, matchesRegex_loop (e_unicode E) (e_re_ok E) (e_re_match E) t (good ++ bad :: rest) <> POk b).
  { clear - B. induction good as [|a args IH]; intros fs H; cbn in *.
    - inversion H; subst. cbn. destruct (newFilter _ _ bad) as [f| |]; [now destruct (B f)|discriminate..].
    - destruct (newFilter (e_unicode E) (e_re_ok E) a) as [f| |]; try discriminate.
      destruct (makeFilters E args) as [fs'| |]; try discriminate. inversion H; subst. cbn. specialize (IH fs' eq_refl).
      now destruct (matchesTransaction (e_re_match E) f t). }
  specialize (L _ _ F). rewrite matches_hits in L.
  assert (H : good <> [] /\ hit E fs t = true <-> whole_hit E fs t || existsb (posting_hit E fs) (t_postings t) = true).
  { destruct good as [|a good]; [inversion F; subst; cbn|].
    - split; [tauto|]. rewrite existsb_false. discriminate.
    - destruct fs as [|f fs]; [|cbn; split; [tauto|split; [discriminate|tauto]]].
      exfalso. cbn in F. destruct (newFilter _ _ a); [|discriminate..]. destruct (makeFilters E good); discriminate. }
  rewrite H. destruct (whole_hit E fs t || existsb (posting_hit E fs) (t_postings t)).
  - rewrite L. split; [tauto|discriminate].
  - split; [|apply L]. split; [discriminate|]. intro K. now destruct (L true).
Qed.

(** The handler wrapper no command uses processes the same transactions as the one
    they use. *)
Theorem C65_handler : forall E O D fs (k : hstate D -> transaction -> str -> hstate D * status) s t path, orders E ->
  filtering_checked E O fs k s t path = checked E O fs (fun s _ t _ path => k s t path) s t path.
Proof.
  intros E O D fs k s t path Or. unfold filtering_checked, checked, checkAgainstFilters.
  destruct (withinDateRange E O (h_n s) t) as [[|]|e|]; try reflexivity. destruct fs as [|f fs]; [reflexivity|].
  rewrite matches_hits. pose proof (match_filters_spec E (f :: fs) t [] (NoDup_nil _)) as M.
  destruct (match_filters E (f :: fs) t []) as [is|]; [|rewrite M; reflexivity].
  destruct M as (W & N & I). rewrite W. cbn [orb negb andb].
  assert (P : Permutation (pick (t_postings t) (e_order E (h_n s) nat is)) (filter (posting_hit E (f :: fs)) (t_postings t))).
  { etransitivity; [apply pick_perm; apply Or|]. apply pick_filter; [exact N|]. intro i. rewrite I. cbn. tauto. }
  destruct (existsb (posting_hit E (f :: fs)) (t_postings t)) eqn:X.
  - destruct (pick _ _); [|reflexivity]. apply Permutation_nil in P. apply filter_nil in P. congruence.
  - apply filter_nil in X. rewrite X in P. symmetry in P. apply Permutation_nil in P. now rewrite P.
Qed.
Definition shop : transaction := Txn (Date 2021 3 1) NoState (lit "Shop")
  [Posting [lit "fruit"] (lit "x:y") (Some (Amount (lit "$") 5)); Posting [] (lit "z") (Some (Amount (lit "$") (-5)))] None [] [].
Example C65_example : exists fs, filters_for (env1 []) [lit "@Bank"; lit "=fruit"] fs /\ hit (env1 []) fs shop = true /\
  hit (env1 []) (firstn 1 fs) shop = false.
Proof.
  eexists [_; _]. split; [split; repeat constructor|]. split; vm_compute; reflexivity.
Qed.

(** ** C66: Head *)

(** In general Head goes up until the account above has a reserved name: [k] is what is
    returned for the account [above ++ k :: down]; the names from [k] to the last but one
    are not reserved; that above [k] is, or is none. *)
Theorem C66_exactly : forall ps j out, j_addPostings newJournal ps = (j, out, SOk) ->
  forall above k down d, node (j_root j) (above ++ k :: down) d -> (above = [] \/ ~ unreserved (last above [])) ->
    Forall unreserved (removelast (k :: down)) -> head (j_root j) (above ++ k :: down) = above ++ [k].
Proof.
  intros ps j out H above k down d X Ab U. pose proof (built_postings ps [] newJournal _ _ built_new H) as B. cbn [app] in B.
  apply node_data_at in X; [|apply (b_distinct _ _ B)]. unfold head.
  assert (Nm : forall q, data_at q (j_root j) <> None -> name_at (j_root j) q = last q RootID).
  { intros q0 N. destruct (data_at q0 (j_root j)) as [d0|] eqn:D; [|contradiction]. destruct (b_some _ _ B _ _ D) as (_ & _ & _ & _ & L & _).
    unfold name_at. unfold data_at in D. destruct (find_at q0 (j_root j)); [|discriminate]. inversion D; subst. exact L. }
  assert (Up : forall q r, data_at (q ++ r) (j_root j) <> None -> data_at q (j_root j) <> None).
  { intros q0 r N K. apply N. unfold data_at in *. rewrite find_at_app. now destruct (find_at q0 (j_root j)). }
  assert (Rn : forall n, unreserved n <-> is_root_name n = false).
  { intro n. unfold is_root_name, unreserved. rewrite orb_false_iff. pose proof (str_eqb_eq n RootID) as E1. pose proof (str_eqb_eq n BudgetRootID) as E2.
    change (lit "_root_") with RootID. change (lit "_budget_root_") with BudgetRootID.
    destruct (str_eqb n RootID), (str_eqb n BudgetRootID); intuition congruence. }
  assert (X' : data_at (above ++ k :: down) (j_root j) <> None) by congruence. clear X d.
  revert X' U. induction down as [|c down IH] using rev_ind; intros X U.
  - rewrite rev_app_distr. cbn [rev app head_up]. rewrite rev_involutive, Nm by (apply (Up above [k]); exact X).
    replace (is_root_name (last above RootID)) with true; [reflexivity|]. symmetry. destruct Ab as [->|N]; [reflexivity|].
    destruct above as [|x above]; [reflexivity|]. rewrite (last_any (x :: above) RootID []) by discriminate.
    apply not_false_is_true. intro K. now apply N, Rn.
  - change (k :: down ++ [c]) with ((k :: down) ++ [c]) in *. rewrite removelast_last in U. rewrite app_assoc, rev_app_distr.
    change (rev [c] ++ rev (above ++ k :: down)) with (c :: rev (above ++ k :: down)). cbn [head_up]. rewrite app_assoc in X. pose proof (Up _ _ X) as X2.
    rewrite rev_involutive, Nm by exact X2. assert (Q : last (above ++ k :: down) RootID = last (k :: down) []).
    { rewrite (last_any (above ++ k :: down) RootID []) by (destruct above; discriminate). clear. induction above as [|x above IH]; [reflexivity|].
      cbn [app]. rewrite <- IH. cbn [last]. destruct above; reflexivity. }
    rewrite Q. rewrite (app_removelast_last [] (l := k :: down)) in U by discriminate. apply Forall_app in U as [U1 U2].
    rewrite (proj1 (Rn _) (Forall_inv U2)). now apply IH.
Qed.

(** Without reserved names it is the account below the root. *)
Theorem C66_head : forall ps j out, j_addPostings newJournal ps = (j, out, SOk) ->
  Forall (fun p => Forall unreserved (components p)) ps ->
  forall k q d, node (j_root j) (k :: q) d -> head (j_root j) (k :: q) = [k].
Proof.
  intros ps j out H U k q d X. refine (C66_exactly ps j out H [] k q d X (or_introl eq_refl) _).
  pose proof (built_postings ps [] newJournal _ _ built_new H) as B. cbn [app] in B.
  apply node_data_at in X; [|apply (b_distinct _ _ B)].
  destruct (b_some _ _ B _ _ X) as ([E|(p & I & Bp)] & _); [discriminate|].
  unfold below in Bp. apply prefixb_iff in Bp as [r Er].
  rewrite Forall_forall in U. specialize (U _ I). rewrite Er in U. apply Forall_app in U as [U _].
  rewrite (app_removelast_last [] (l := k :: q)) in U by discriminate. now apply Forall_app in U as [U _].
Qed.

Example C66_exactly_example : let ps := [pst (lit "a:_root_:b:c") 1] in snd (j_addPostings newJournal ps) = SOk /\
  Forall unreserved (removelast [lit "b"; lit "c"]) /\ ~ unreserved (last [lit "a"; lit "_root_"] []) /\
  option_map a_path (data_at [lit "a"; lit "_root_"; lit "b"; lit "c"] (tree_of ps)) <> None /\
  head (tree_of ps) [lit "a"; lit "_root_"; lit "b"; lit "c"] = [lit "a"; lit "_root_"; lit "b"].
Proof.
  cbv zeta. split; [vm_compute; reflexivity|]. split; [repeat constructor; discriminate|]. split; [intros [N _]; now apply N|]. split; [vm_compute; discriminate|vm_compute; reflexivity].
Qed.
Example C66_example : Forall (fun p => Forall unreserved (components p)) month /\
  snd (j_addPostings newJournal month) = SOk /\
  option_map a_path (data_at [lit "Expenses"; lit "Food"; lit "Fruit"] (tree_of month)) = Some (lit "Expenses:Food:Fruit").
Proof. split; [apply C32_example|]. split; vm_compute; reflexivity. Qed.

(** A component with a reserved name hides what is above it. *)
Theorem C66_reserved_refuted : let ps := [pst (lit "a:_root_:b") 1] in
  snd (j_addPostings newJournal ps) = SOk /\
  head (tree_of ps) [lit "a"; lit "_root_"; lit "b"] = [lit "a"; lit "_root_"; lit "b"].
Proof. split; vm_compute; reflexivity. Qed.

(** ** C67: String methods of the enumerations *)

(** [i] is written in decimal, the sign first. *)
Definition spells (s : str) (i : Z) : Prop :=
  (0 <= i /\ canonical s i) \/ (i < 0 /\ exists m, s = 45 :: m /\ canonical m (- i)).
Lemma itoa_spells : forall i, spells (itoa i) i.
Proof.
  intro i. unfold itoa, spells. destruct (Z.ltb_spec i 0).
  - right. split; [assumption|]. eexists. split; [reflexivity|]. apply canonical_itoa. lia.
  - left. split; [lia|]. apply canonical_itoa. lia.
Qed.

(** Values with a name get it, all others the type's name and the number. *)
Definition named_values (typename : str) (names : list str) (f : Z -> option str) : Prop :=
  forall i, (0 <= i < Z.of_nat (length names) -> f i = Some (nth (Z.to_nat i) names [])) /\
    (~ 0 <= i < Z.of_nat (length names) -> exists n, f i = Some (typename ++ lit "(" ++ n ++ lit ")") /\ spells n i).

(** Names laid end to end at the positions given. *)
Fixpoint ends (at_ : Z) (names : list str) : list Z :=
  match names with [] => [] | n :: ns => (at_ + Z.of_nat (length n)) :: ends (at_ + Z.of_nat (length n)) ns end.
Lemma ends_length : forall names a, length (ends a names) = length names.
Proof. induction names; intro; cbn; auto. Qed.

Lemma go_slice_mid : forall a b c, go_slice (a ++ b ++ c) (Z.of_nat (length a)) (Z.of_nat (length a) + Z.of_nat (length b)) = Some b.
Proof.
  intros a b c. unfold go_slice.
  replace ((0 <=? Z.of_nat (length a)) && (Z.of_nat (length a) <=? Z.of_nat (length a) + Z.of_nat (length b)) &&
    (Z.of_nat (length a) + Z.of_nat (length b) <=? Z.of_nat (length (a ++ b ++ c)))) with true.
  2: { symmetry. rewrite !andb_true_iff, !Z.leb_le, !app_length. lia. }
  replace (Z.of_nat (length a) + Z.of_nat (length b) - Z.of_nat (length a)) with (Z.of_nat (length b)) by lia.
  rewrite !Nat2Z.id, skipn_app, skipn_all, Nat.sub_diag, skipn_O, app_nil_l, firstn_app, firstn_all, Nat.sub_diag, firstn_O, app_nil_r. reflexivity.
Qed.

Lemma stringer_named : forall typename names, named_values typename names (stringer typename (concat names) (0 :: ends 0 names)).
Proof.
  intros ty names i. unfold stringer. cbn [length]. rewrite ends_length. split; intro H.
  - replace ((i <? 0) || (Z.of_nat (S (length names)) - 1 <=? i)) with false.
    2: { symmetry. apply orb_false_iff. split; [apply Z.ltb_ge|apply Z.leb_gt]; lia. }
    unfold go_index. rewrite (proj2 (Z.leb_le 0 i)), (proj2 (Z.leb_le 0 (i + 1))) by lia.
    rewrite Z2Nat.inj_add by lia. change (Z.to_nat 1) with 1%nat. rewrite Nat.add_1_r.
    set (n := Z.to_nat i). assert (L : (n < length names)%nat) by lia. clearbody n. clear i H.
    assert (G : forall names n pre, (n < length names)%nat ->
      match nth_error (Z.of_nat (length pre) :: ends (Z.of_nat (length pre)) names) n, nth_error (ends (Z.of_nat (length pre)) names) n with
      | Some a, Some b => go_slice (pre ++ concat names) a b
      | _, _ => None
      end = Some (nth n names [])).
    { clear. induction names as [|x names IH]; intros n pre L; [cbn in L; lia|]. cbn [ends concat]. destruct n as [|n].
      - cbn [nth_error nth]. apply go_slice_mid.
      - cbn [nth_error nth]. rewrite app_assoc. replace (Z.of_nat (length pre) + Z.of_nat (length x)) with (Z.of_nat (length (pre ++ x))).
        + apply IH. cbn in L. lia.
        + rewrite app_length. lia. }
    exact (G names n [] L).
  - replace ((i <? 0) || (Z.of_nat (S (length names)) - 1 <=? i)) with true.
    + exists (itoa i). split; [reflexivity|]. apply itoa_spells.
    + symmetry. apply orb_true_iff. rewrite Z.ltb_lt, Z.leb_le. lia.
Qed.

Definition period_names : list str := map lit ["PNone"; "PDaily"; "PWeekly"; "PMonthly"; "PQuarterly"; "PYearly"; "PBiweekly"; "PFortnightly"; "PBiMonthly"]%string.
Definition state_names : list str := map lit ["NoState"; "UnclearedState"; "ClearedState"]%string.
Definition item_names : list str := map lit ["emptyLineItem"; "includeItem"; "dateItem"; "stateItem"; "payeeItem"; "accountItem"; "commodityItem"; "amountItem";
  "commentItem"; "transactionHeaderCommentItem"; "periodItem"; "eofItem"]%string.
Definition transaction_names : list str := map lit ["normalTransaction"; "periodicTransaction"]%string.

Theorem C67_strings :
  named_values (lit "PeriodType") period_names periodType_String /\
  named_values (lit "TransactionState") state_names transactionState_String /\
  named_values (lit "itemType") item_names itemType_String /\
  named_values (lit "transactionType") transaction_names transactionType_String.
Proof.
  split; [exact (stringer_named (lit "PeriodType") period_names)|].
  split; [exact (stringer_named (lit "TransactionState") state_names)|].
  split; [exact (stringer_named (lit "itemType") item_names)|exact (stringer_named (lit "transactionType") transaction_names)].
Qed.
Example C67_example : itemType_String 9 = Some (lit "transactionHeaderCommentItem") /\ itemType_String 12 = Some (lit "itemType(12)") /\
  periodType_String (-1) = Some (lit "PeriodType(-1)").
Proof. repeat split; vm_compute; reflexivity. Qed.

(** In the parser's messages each kind of item goes under its own name. *)
Theorem C67_items : forall L,
  map item_text [emptyLineItem; includeItem; dateItem; stateItem; payeeItem; accountItem; commodityItem; amountItem;
    commentItem; transactionHeaderCommentItem; periodItem; eofItem] = item_names /\
  err_text L EExpectedState = lit "expected state but got stateItem" /\
  err_text L EExpectedPayee = lit "expected payee but got payeeItem" /\
  err_text L EExpectedAccount = lit "expected account but got accountItem" /\
  err_text L EExpectedCommodity = lit "expected currency but got commodityItem" /\
  err_text L EExpectedAmount = lit "expected amount but got amountItem".
Proof. intro L. repeat split; vm_compute; reflexivity. Qed.

(** ** C68: Account.String *)

(** [listing level a ls]: the lines [ls] name [a] and all accounts below it, each
    before those below it, indented by two spaces per level. *)
Inductive listing : nat -> account -> list str -> Prop :=
| Listing : forall level d ch parts ch', Permutation ch' ch ->
    Forall2 (fun kc ls => listing (S level) (snd kc) ls) ch' parts ->
    listing level (Acc d ch) ((rep (2 * level) 32 ++ a_name d) :: concat parts).

Lemma join_app : forall sep l r, l <> [] -> r <> [] -> join sep (l ++ r) = join sep l ++ sep ++ join sep r.
Proof.
  intros sep. induction l as [|x l IH]; intros r N N'; [contradiction|]. destruct l as [|y l].
  - cbn. destruct r; [contradiction|reflexivity].
  - change ((x :: y :: l) ++ r) with (x :: (y :: l) ++ r). change (join sep (x :: (y :: l) ++ r)) with (x ++ sep ++ join sep ((y :: l) ++ r)).
    rewrite IH by (auto; discriminate). change (join sep (x :: y :: l)) with (x ++ sep ++ join sep (y :: l)). now rewrite <- !app_assoc.
Qed.
Lemma join_parts : forall m l, l <> [] -> Forall (fun x => x <> []) m ->
  fold_left (fun s t => s ++ [10] ++ t) (map (join [10]) m) (join [10] l) = join [10] (l ++ concat m).
Proof.
  induction m as [|x m IH]; intros l N F; cbn [map fold_left concat]; [now rewrite app_nil_r|]. inversion_clear F as [|? ? X F'].
  rewrite <- join_app by assumption. rewrite IH, app_assoc; auto. destruct l; [contradiction|discriminate].
Qed.

Theorem C68_string : forall ord p level a, some_order ord -> exists ls, listing level a ls /\ asString ord p level a = join [10] ls.
Proof.
  intros ord p level a Or. revert p level. induction a as [d ch IH] using account_ind'. intros p level. rewrite Forall_forall in IH.
  cbn [asString acc_name acc_data acc_children].
  destruct (Permutation_map_inv _ _ (Or p _ (map (fun kc => asString ord (p ++ [fst kc]) (S level) (snd kc)) ch))) as (ch' & E & P).
  assert (L : exists parts, Forall2 (fun kc ls => listing (S level) (snd kc) ls) ch' parts /\
    map (fun kc => asString ord (p ++ [fst kc]) (S level) (snd kc)) ch' = map (join [10]) parts).
  { assert (IH' : forall kc, In kc ch' -> forall p level, exists ls, listing level (snd kc) ls /\ asString ord p level (snd kc) = join [10] ls).
    { intros kc I. apply IH. eapply Permutation_in; [symmetry; exact P|exact I]. }
    clear - IH'. induction ch' as [|kc l IHl]; [exists []; split; [constructor|reflexivity]|].
    destruct (IH' kc (or_introl eq_refl) (p ++ [fst kc]) (S level)) as (ls & H1 & H2).
    destruct IHl as (parts & F & M); [intros x I; apply IH'; now right|].
    exists (ls :: parts). split; [constructor; assumption|]. cbn [map]. now rewrite H2, M. }
  destruct L as (parts & F & M). exists ((rep (2 * level) 32 ++ a_name d) :: concat parts). split.
  - apply Listing with ch'; [now symmetry|exact F].
  - rewrite E, M. replace (level * Z.to_nat TabWidth)%nat with (2 * level)%nat by (unfold TabWidth; lia).
    change (rep (2 * level) 32 ++ acc_name (Acc d ch)) with (join [10] [rep (2 * level) 32 ++ a_name d]).
    rewrite join_parts; [reflexivity|discriminate|]. clear - F. induction F as [|x y l l' H F IH]; [constructor|]. constructor; [|exact IH].
    inversion H. discriminate.
Qed.

(** The lines are one for each account. *)
Fixpoint size (a : account) : nat := let 'Acc _ ch := a in S (list_sum (map (fun kc => size (snd kc)) ch)).
Lemma list_sum_perm : forall l l', Permutation l l' -> list_sum l = list_sum l'.
Proof. intros l l2 P. unfold list_sum. induction P; cbn [fold_right] in *; lia. Qed.
Theorem C68_count : forall level a ls, listing level a ls -> length ls = size a.
Proof.
  intros level a. revert level. induction a as [d ch IH] using account_ind'. intros level ls L. rewrite Forall_forall in IH.
  inversion L as [? ? ? parts ch' P F]; subst. cbn [length size]. f_equal.
  rewrite <- (list_sum_perm _ _ (Permutation_map (fun kc => size (snd kc)) P)).
  assert (IH' : forall kc, In kc ch' -> forall level ls, listing level (snd kc) ls -> length ls = size (snd kc)).
  { intros kc I. apply IH. eapply Permutation_in; [exact P|exact I]. }
  clear - F IH'. induction F as [|x y l l' H F IHF]; [reflexivity|]. cbn. rewrite app_length, (IH' x (or_introl eq_refl) _ _ H), IHF; [reflexivity|].
  intros kc I. apply IH'. now right.
Qed.
Example C68_example : asString (fun _ _ l => rev l) [] 0 (tree_of month) = join [10] (map lit
  ["_root_"; "  Expenses"; "    Rent"; "    Food"; "      Fruit"; "  Assets"; "    Cash"; "    Bank"]%string) /\ some_order (fun _ _ l => rev l).
Proof. split; [vm_compute; reflexivity|]. intros p A l. symmetry. apply Permutation_rev. Qed.

(** ** C69: running a periodic transaction *)

(** Whatever the bounds: a period without interval yields its transaction at its
    start, any other nothing. *)
Theorem C69_run_partial : forall pt start end_,
  (pe_interval (pt_period pt) = PNone -> exists t, pt_run_between pt start end_ = ([t], []) /\
     t_date t = pe_start (pt_period pt) /\ t_postings t = t_postings (pt_txn pt) /\ t_payee t = t_payee (pt_txn pt)) /\
  (pe_interval (pt_period pt) <> PNone -> fst (pt_run_between pt start end_) = [] /\
     (snd (pt_run_between pt start end_) = [] <->
        (instant start <> 0 /\ instant (pe_end (pt_period pt)) < instant start) \/
        (instant end_ <> 0 /\ instant end_ < instant (pe_start (pt_period pt)))) /\
     (snd (pt_run_between pt start end_) <> [] ->
        snd (pt_run_between pt start end_) = lines [lit "unhandled conversion of non-budget periodic transaction"])).
Proof.
  intros [[s e i f] t] start end_. unfold pt_run_between. cbn [pt_period pt_txn pe_interval pe_start pe_end]. split.
  - intros ->. cbn [is_pnone]. eexists. split; [reflexivity|]. repeat split.
  - intro N. replace (is_pnone i) with false by (destruct i; [contradiction|reflexivity..]).
    assert (X : forall b c, (negb (isZero b) && date_before c b = true <-> instant b <> 0 /\ instant c < instant b) /\
                            (negb (isZero b) && date_before b c = true <-> instant b <> 0 /\ instant b < instant c)).
    { intros b c. unfold isZero, date_before. rewrite !andb_true_iff, !negb_true_iff, Z.eqb_neq, !Z.ltb_lt. tauto. }
    rewrite <- (proj1 (X start e)), <- (proj2 (X end_ s)), <- orb_true_iff.
    destruct (_ || _); cbn; split; try reflexivity; split; try (split; (reflexivity || discriminate)); intro; (reflexivity || contradiction).
Qed.

(** Nothing is generated for an interval, bounds or not. *)
Theorem C69_interval_refuted : let pt := PTxn (Period (Date 2021 1 1) (Date 2021 12 31) PMonthly 1) shop in
  pt_run_between pt (Date 2021 3 1) (Date 2021 5 1) =
    ([], [lit "unhandled conversion of non-budget periodic transaction" ++ [10]]).
Proof. vm_compute. reflexivity. Qed.
Example C69_example : let pt := PTxn (Period (Date 2021 1 1) (Date 2021 12 31) PNone 0) shop in
  exists t, pt_run_between pt zero_date zero_date = ([t], []) /\ t_date t = Date 2021 1 1.
Proof. eexists. split; [vm_compute; reflexivity|reflexivity]. Qed.
