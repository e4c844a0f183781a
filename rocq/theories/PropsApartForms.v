(** * C110 for every form of the balance report: tree, collapsed tree, flat *)
From Verif Require Import Base BaseFacts Utf8 Unicode GoTime Strconv Display Journal Lexer Parser ParserFacts Account Reporting Cmd Spec TextSpec
  TreeSpec TreeFacts ReportSpec ReportFacts CollapseFacts CmdSpec CmdFacts BalanceFacts FlatSpec Sample PropsParser PropsCmd PropsBalance PropsPrint PropsReread PropsAgain
  PropsWhere PropsConcat PropsJoin PropsApart.

(** [row_of fl co sh amount q line]: [line] is the line of the account [q], where
    [sh] tells the accounts shown and [amount q] is the text of what [q] holds. *)
Definition row_of (fl co : bool) (sh : list str -> Prop) (amount : list str -> str) (q : list str) (line : str) : Prop :=
  if fl then sh q /\ (forall x, ~ sh (q ++ [x])) /\ line = amount q ++ [32; 32] ++ join [58] (visible q)
  else if co then sh q /\ ~ alone sh q /\ exists n names, folded (alone sh) q n names /\ line = amount q ++ [32; 32] ++ rep (2 * n) 32 ++ join [58] names
  else sh q /\ line = amount q ++ [32; 32] ++ rep (2 * (length q - 1)) 32 ++ last q (lit "_root_").
Definition amount_of (ps : list posting) (q : list str) : str :=
  column (first_commodity (filter (below q) ps)) (wrap64 (total (filter (below q) ps))).
Definition row := (list str * str)%type.
Definition of_account (k : str) (r : row) : bool := under k (fst r).

Lemma rows_together : forall k (l : list row), StronglySorted path_lt (map fst l) ->
  exists l1 l2, l = l1 ++ filter (of_account k) l ++ l2 /\ Forall (fun r => of_account k r = false) (l1 ++ l2).
Proof.
  intros k l. induction l as [|a l IH]; intro H; [exists [], []; split; [reflexivity|constructor]|].
  cbn [map] in H. inversion_clear H as [|? ? S F]. destruct (IH S) as (l1 & l2 & E & U). cbn [filter]. destruct (of_account k a) eqn:Ka.
  - assert (Z : l1 = [] \/ filter (of_account k) l = []).
    { destruct l1 as [|b l1]; [now left|]. destruct (filter (of_account k) l) as [|c m] eqn:Fl; [now right|exfalso].
      assert (Ic : In c l /\ of_account k c = true) by (apply filter_In; rewrite Fl; now left).
      rewrite E in S, F. rewrite Forall_forall in F. assert (Lb : path_lt (fst a) (fst b)) by (apply F; now left).
      cbn in S. inversion S as [|? ? _ Fb]; subst. rewrite Forall_forall in Fb.
      assert (Lc : path_lt (fst b) (fst c)) by (apply Fb, in_map, in_app_iff; right; now left).
      cbn in U. inversion_clear U as [|? ? Ub _]. destruct Ic as [_ Kc]. unfold of_account in *.
      destruct (fst a) as [|x p]; [discriminate|]. destruct (fst c) as [|z q]; [discriminate|].
      cbn in Ka, Kc. apply str_eqb_eq in Ka, Kc. subst x z. destruct (fst b) as [|y r]; [inversion Lb|].
      cbn in Ub. assert (Ny : y <> k) by (intro; subst y; rewrite str_eqb_refl in Ub; discriminate).
      inversion Lb as [|? ? ? ? L1|]; subst; [|congruence]. inversion Lc as [|? ? ? ? L2|]; subst; [|congruence].
      pose proof (str_ltb_trans _ _ _ L1 L2) as X. rewrite str_ltb_irrefl in X. discriminate. }
    destruct Z as [-> | Z].
    + exists [], l2. split; [cbn; now rewrite E at 1|exact U].
    + rewrite Z in E |- *. exists [], l. split; [reflexivity|]. cbn. rewrite E. exact U.
  - exists (a :: l1), l2. split; [cbn; now rewrite E at 1|]. cbn. constructor; assumption.
Qed.
Lemma rows_sorted : forall (f : row -> bool) l, StronglySorted path_lt (map fst l) -> StronglySorted path_lt (map fst (filter f l)).
Proof.
  intros f l. induction l as [|a l IH]; intro H; [constructor|]. cbn [map] in H. inversion_clear H as [|? ? S F]. cbn [filter]. destruct (f a); [|auto].
  cbn [map]. constructor; [auto|]. rewrite Forall_forall in *. intros x I. apply in_map_iff in I as (r & <- & I). apply filter_In in I as [I _]. apply F. now apply in_map.
Qed.
Lemma rows_same : forall l l' : list row, StronglySorted path_lt (map fst l) -> StronglySorted path_lt (map fst l') -> (forall x, In x l <-> In x l') -> l = l'.
Proof.
  induction l as [|a l IH]; intros l' H H' E.
  - destruct l' as [|b l']; [reflexivity|]. destruct (proj2 (E b) (or_introl eq_refl)).
  - destruct l' as [|b l']; [destruct (proj1 (E a) (or_introl eq_refl))|]. cbn [map] in H, H'. inversion_clear H as [|? ? S F]. inversion_clear H' as [|? ? S' F'].
    rewrite Forall_forall in F, F'.
    assert (a = b) as ->.
    { destruct (proj1 (E a) (or_introl eq_refl)) as [->|Ia]; [reflexivity|]. destruct (proj2 (E b) (or_introl eq_refl)) as [->|Ib]; [reflexivity|].
      destruct (path_lt_irrefl (fst a)). apply (in_map fst) in Ia, Ib. eapply path_lt_trans; eauto. }
    f_equal. apply IH; [exact S|exact S'|]. intro x. split; intro I.
    + destruct (proj1 (E x) (or_intror I)) as [->|K]; [destruct (path_lt_irrefl (fst x) (F _ (in_map fst _ _ I)))|exact K].
    + destruct (proj2 (E x) (or_intror I)) as [->|K]; [destruct (path_lt_irrefl (fst x) (F' _ (in_map fst _ _ I)))|exact K].
Qed.

(** The lines of the report in any form: each is that of an account; with
    --flatten a report that shows no account has a line for all. *)
Lemma report_rows : forall E O sel, sane_clock E -> orders E -> filters_for E (o_args O) [] -> r_status (balance_cmd E O) = SOk ->
  picks E O [] (txns 0 (fst (stream E O))) sel ->
  exists rows : list row, StronglySorted path_lt (map fst rows) /\
    (forall q line, q <> [] -> (In (q, line) rows <-> row_of (o_flatten O) (o_collapse O) (shown (o_show_zero O) (taken sel)) (amount_of (taken sel)) q line)) /\
    r_out (balance_cmd E O) = complaints [] (taken sel) ++
      [unlines (map snd rows) ++ [10]; lit "--------------------" ++ [10]; column [] (wrap64 (total (taken sel))) ++ [10]].
Proof.
  intros E O sel C Or F Ok P.
  assert (T : forall sel1, picks E O [] (txns 0 (fst (stream E O))) sel1 -> taken sel1 = taken sel).
  { intros sel1 P1. now rewrite (taken_whole _ _ _ _ P1), (taken_whole _ _ _ _ P), (picks_selected _ _ _ _ _ _ P1 P). }
  unfold row_of. destruct (o_flatten O) eqn:Ff; [|destruct (o_collapse O) eqn:Fc].
  - destruct (C61_flat E O [] C Or F Ff Ok) as (sel1 & rows & P1 & Io & I & Q). rewrite (T _ P1) in *.
    exists (map (fun r => (fst r, amount_of (taken sel) (fst r) ++ [32; 32] ++ join [58] (visible (fst r)))) rows).
    rewrite !map_map. cbn [fst snd]. split; [exact Io|]. split; [|exact Q].
    intros q line N. rewrite in_map_iff. split.
    + intros ([q0 d] & X & J). cbn [fst] in X. injection X as -> <-. apply I in J as ([J|J] & _ & L); [contradiction|]. auto.
    + intros (J & L & ->). destruct (holds_some (taken sel) q) as [d Hd]. exists (q, d). split; [reflexivity|]. apply I. auto.
  - destruct (C61_collapsed E O [] C Or F Ff Fc Ok) as (sel1 & rows & P1 & X). rewrite (T _ P1) in X. cbn zeta in X. destruct X as (Io & I & Q).
    exists (map (fun r => (fst r, amount_of (taken sel) (fst r) ++ [32; 32] ++ rep (2 * fst (snd r)) 32 ++ join [58] (snd (snd r)))) rows).
    rewrite !map_map. cbn [fst snd]. split; [exact Io|]. split; [|exact Q].
    intros q line N. rewrite in_map_iff. split.
    + intros ([q0 [n names]] & X & J). cbn [fst snd] in X. injection X as -> <-. apply I in J as (_ & J & A & Fo). eauto 7.
    + intros (J & A & n & names & Fo & ->). exists (q, (n, names)). split; [reflexivity|]. apply I. auto.
  - destruct (C61_rows E O [] C Or F Ff Fc Ok) as (sel1 & rows & P1 & Io & I & Q). rewrite (T _ P1) in *.
    exists (map (fun r => (fst r, amount_of (taken sel) (fst r) ++ [32; 32] ++ rep (2 * (length (fst r) - 1)) 32 ++ last (fst r) (lit "_root_"))) rows).
    rewrite !map_map. cbn [fst snd]. split; [exact Io|]. split; [|exact Q].
    intros q line N. rewrite in_map_iff. split.
    + intros ([q0 d] & X & J). cbn [fst] in X. injection X as -> <-. apply I in J as (_ & J & _). auto.
    + intros (J & ->). destruct (holds_some (taken sel) q) as [d Hd]. exists (q, d). split; [reflexivity|]. apply I. auto.
Qed.

(** What the line of [q] says depends on the accounts shown at the accounts above
    [q], right below these and right below [q]. *)
Lemma under_snoc : forall k q x, under k q = true -> under k (q ++ [x]) = true.
Proof. intros k [|y q] x U; [discriminate|exact U]. Qed.
Lemma row_of_under : forall k fl co sh sh' am am' q line, (forall r, under k r = true -> (sh r <-> sh' r)) -> (forall r, under k r = true -> am r = am' r) ->
  under k q = true -> row_of fl co sh am q line -> row_of fl co sh' am' q line.
Proof.
  intros k fl co sh sh' am am' q line S A U.
  assert (Al : forall r, under k r = true -> (alone sh r <-> alone sh' r)).
  { intros r Ur. split; intros [x X]; exists x; intro x'; rewrite <- X; [symmetry|]; apply S; now apply under_snoc. }
  unfold row_of. destruct fl; [|destruct co].
  - intros (J & L & ->). split; [now apply S|]. split; [|now rewrite A]. intros x Sx. apply (L x). apply S; [now apply under_snoc|exact Sx].
  - intros (J & N & n & names & Fo & ->). split; [now apply S|]. split; [now rewrite <- Al|]. exists n, names. split; [|now rewrite A].
    eapply folded_ext; [|exact Fo]. intros r Nr Pr. apply Al. eapply prefix_under; eauto.
  - intros (J & ->). split; [now apply S|now rewrite A].
Qed.

(** The reports have the same lines [mine] for [k] and the accounts below it; they
    stand together, and the rest of each report is of other accounts. *)
Definition same_lines (k : str) (rowed : list str -> str -> Prop) (ps ps' : list posting) (out out' : list str) : Prop :=
  exists l1 mine l2 l1' l2' : list row, StronglySorted path_lt (map fst (l1 ++ mine ++ l2)) /\ StronglySorted path_lt (map fst (l1' ++ mine ++ l2')) /\
    (forall q line, In (q, line) mine <-> under k q = true /\ rowed q line) /\
    Forall (fun r => of_account k r = false) (l1 ++ l2) /\ Forall (fun r => of_account k r = false) (l1' ++ l2') /\
    out = complaints [] ps ++
      [unlines (map snd l1 ++ map snd mine ++ map snd l2) ++ [10]; lit "--------------------" ++ [10]; column [] (wrap64 (total ps)) ++ [10]] /\
    out' = complaints [] ps' ++
      [unlines (map snd l1' ++ map snd mine ++ map snd l2') ++ [10]; lit "--------------------" ++ [10]; column [] (wrap64 (total ps')) ++ [10]].

(** [C110_rows] for any form of report, the same in both runs. *)
Theorem C110_forms : forall E O E' O' k sel sel', sane_clock E -> orders E -> sane_clock E' -> orders E' ->
  o_args O = [] -> o_args O' = [] -> o_flatten O' = o_flatten O -> o_collapse O' = o_collapse O -> o_show_zero O' = o_show_zero O ->
  r_status (balance_cmd E O) = SOk -> r_status (balance_cmd E' O') = SOk ->
  picks E O [] (txns 0 (fst (stream E O))) sel -> picks E' O' [] (txns 0 (fst (stream E' O'))) sel' ->
  map plainly (filter (below [k]) (taken sel)) = map plainly (filter (below [k]) (taken sel')) ->
  same_lines k (row_of (o_flatten O) (o_collapse O) (shown (o_show_zero O) (taken sel)) (amount_of (taken sel)))
    (taken sel) (taken sel') (r_out (balance_cmd E O)) (r_out (balance_cmd E' O')).
Proof.
  intros E O E' O' k sel sel' C Or C' Or' A A' Ff Fc Z Ok Ok' P P' Same.
  assert (F : filters_for E (o_args O) []) by (rewrite A; split; constructor).
  assert (F' : filters_for E' (o_args O') []) by (rewrite A'; split; constructor).
  destruct (report_rows E O sel C Or F Ok P) as (rows & So & I & Q). destruct (report_rows E' O' sel' C' Or' F' Ok' P') as (rows' & So' & I' & Q').
  rewrite Ff, Fc, Z in I'.
  destruct (rows_together k rows So) as (l1 & l2 & El & Fu). destruct (rows_together k rows' So') as (l1' & l2' & El' & Fu').
  set (ro := row_of (o_flatten O) (o_collapse O) (shown (o_show_zero O) (taken sel)) (amount_of (taken sel))) in *.
  set (ro' := row_of (o_flatten O) (o_collapse O) (shown (o_show_zero O) (taken sel')) (amount_of (taken sel'))) in *.
  assert (Ro : forall q line, under k q = true -> (ro q line <-> ro' q line)).
  { intros q line U. unfold ro, ro'.
    assert (Sh : forall r, under k r = true -> (shown (o_show_zero O) (taken sel) r <-> shown (o_show_zero O) (taken sel') r)).
    { intros r Ur. split; intro S; (eapply apart_shown; [|exact Ur|exact S]); [exact Same|symmetry; exact Same]. }
    assert (Am : forall r, under k r = true -> amount_of (taken sel) r = amount_of (taken sel') r).
    { intros r Ur. unfold amount_of. now rewrite (apart_total k _ _ Same r Ur), (apart_first k _ _ Same r Ur). }
    split; apply (row_of_under k); auto; intros r Ur; symmetry; auto. }
  assert (M : forall q line, In (q, line) (filter (of_account k) rows) <-> under k q = true /\ ro q line).
  { intros q line. rewrite filter_In. unfold of_account. cbn [fst]. split; intros [X Y]; (split; [|]); auto;
      (apply I; [|assumption]) || (apply (I q line); [|assumption]); intro; subst q; discriminate. }
  assert (M' : forall q line, In (q, line) (filter (of_account k) rows') <-> under k q = true /\ ro' q line).
  { intros q line. rewrite filter_In. unfold of_account. cbn [fst]. split; intros [X Y]; (split; [|]); auto;
      (apply I'; [|assumption]) || (apply (I' q line); [|assumption]); intro; subst q; discriminate. }
  assert (Eq : filter (of_account k) rows' = filter (of_account k) rows).
  { apply rows_same; [now apply rows_sorted..|]. intros [q line]. rewrite M, M'. split; intros [U X]; (split; [exact U|]); now apply Ro. }
  rewrite Eq in El'. exists l1, (filter (of_account k) rows), l2, l1', l2'.
  split; [now rewrite <- El|]. split; [now rewrite <- El'|]. split; [exact M|]. split; [exact Fu|]. split; [exact Fu'|]. split.
  - rewrite Q. rewrite El at 1. now rewrite !map_app.
  - rewrite Q'. rewrite El' at 1. now rewrite !map_app.
Qed.

(** A journal to which another is appended that posts nothing to [k] or below,
    in any form of report. *)
Theorem C110_appended_forms : forall E O p a b k s1 s2 s, journal_path E O = Some p -> line_start a -> steady E -> sane_clock E -> orders E ->
  o_args O = [] ->
  picks (holding E p a) O [] (txns 0 (fst (stream (holding E p a) O))) s1 -> picks (holding E p b) O [] (txns 0 (fst (stream (holding E p b) O))) s2 ->
  picks (holding E p (a ++ LF :: b)) O [] (txns 0 (fst (stream (holding E p (a ++ LF :: b)) O))) s ->
  r_status (balance_cmd (holding E p (a ++ LF :: b)) O) = SOk ->
  Forall (fun q => below [k] q = false) (taken s2) ->
  r_status (balance_cmd (holding E p a) O) = SOk /\
  same_lines k (row_of (o_flatten O) (o_collapse O) (shown (o_show_zero O) (taken s1)) (amount_of (taken s1)))
    (taken s1) (taken s1 ++ taken s2) (r_out (balance_cmd (holding E p a) O)) (r_out (balance_cmd (holding E p (a ++ LF :: b)) O)).
Proof.
  intros E O p a b k s1 s2 s J St Sd C Or A P1 P2 P Ok N.
  assert (F : forall x, filters_for (holding E p x) (o_args O) []) by (intro x; rewrite A; split; constructor).
  assert (Ok1 : r_status (balance_cmd (holding E p a) O) = SOk).
  { pose proof (proj1 (proj1 (C61_balance (holding E p (a ++ LF :: b)) O [] C Or (F _))) Ok) as [R (z & Pz & Hz)].
    apply (proj1 (C61_balance (holding E p a) O [] C Or (F _))). pose proof (proj1 (joined_readable E O p a b J St Sd) R) as [R1 _].
    split; [exact R1|]. exists s1. split; [exact P1|].
    destruct (joined_picks E O p a b J St Sd [] s1 s2 z (proj1 R) P1 P2 Pz) as [_ Pm]. apply (Permutation_Forall Pm) in Hz. now apply Forall_app in Hz. }
  split; [exact Ok1|].
  pose proof (proj1 (proj1 (C61_balance (holding E p (a ++ LF :: b)) O [] C Or (F _))) Ok) as [R _].
  destruct (joined_picks E O p a b J St Sd [] s1 s2 s (proj1 R) P1 P2 P) as [Sl _].
  assert (T : taken s = taken s1 ++ taken s2).
  { now rewrite (taken_whole _ _ _ _ P), (taken_whole _ _ _ _ P1), (taken_whole _ _ _ _ P2), Sl, flat_map_app. }
  rewrite <- T. apply C110_forms; auto. rewrite T, filter_app.
  assert (X : filter (below [k]) (taken s2) = []).
  { clear - N. induction N as [|q l H _ IH]; [reflexivity|]. cbn [filter]. now rewrite H. }
  now rewrite X, app_nil_r.
Qed.


(** (The other hypotheses: [C110_example].) The lines of [x] and below, flat and
    collapsed, in the reports of one journal and of both. *)
Definition opts_form (flatten : bool) : opts := Opts (lit "j") [] [] false [] flatten (negb flatten) true.
Example C110_forms_example : let at_ x := holding (env1 []) (lit "j") x in
  let v_line := lit "               $2.00  v:y" ++ [10] ++ lit "              $-2.00  w" ++ [10] in
  let x_line := lit "               $1.00  x:y" ++ [10] in let z_line := lit "              $-4.50  z" ++ [10] in
  balance_cmd (at_ text_same) (opts_form true) = Outcome ((x_line ++ z_line) :: ending) SOk /\
  balance_cmd (at_ (text_same ++ LF :: third_text)) (opts_form true) = Outcome ((v_line ++ x_line ++ z_line) :: ending) SOk /\
  balance_cmd (at_ text_same) (opts_form false) = Outcome ((x_line ++ z_line) :: ending) SOk /\
  balance_cmd (at_ (text_same ++ LF :: third_text)) (opts_form false) = Outcome ((v_line ++ x_line ++ z_line) :: ending) SOk.
Proof. repeat split; vm_compute; reflexivity. Qed.
