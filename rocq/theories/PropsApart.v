(** * C110: what is posted elsewhere does not change an account's rows *)
From Verif Require Import Base BaseFacts Utf8 Unicode GoTime Strconv Display Journal Lexer Parser ParserFacts Account Reporting Cmd Spec TextSpec
  TreeSpec TreeFacts ReportSpec ReportFacts CmdSpec CmdFacts BalanceFacts FlatSpec Sample PropsParser PropsCmd PropsBalance PropsPrint PropsReread PropsAgain PropsWhere PropsConcat PropsJoin.

(** The line of the account [q], and the accounts at or below the top account [k]. *)
Definition row_line (ps : list posting) (q : list str) : str :=
  column (first_commodity (filter (below q) ps)) (wrap64 (total (filter (below q) ps))) ++ [32; 32] ++
  rep (2 * (length q - 1)) 32 ++ last q (lit "_root_").
Definition under (k : str) (q : list str) : bool := match q with x :: _ => str_eqb x k | [] => false end.

Lemma path_lt_irrefl : forall q, ~ path_lt q q.
Proof. induction q as [|k q IH]; intro H; inversion H; subst; [|auto]. rewrite str_ltb_irrefl in *. discriminate. Qed.
Lemma path_lt_trans : forall a b, path_lt a b -> forall c, path_lt b c -> path_lt a c.
Proof.
  induction 1 as [k q|k k' q q' L|k q q' H IH]; intros c K; inversion K; subst;
    first [apply ParentFirst|solve [apply SameKey; auto]|apply EarlierKey; first [assumption|eapply str_ltb_trans; eassumption]].
Qed.
Lemma paths_same : forall l l', StronglySorted path_lt l -> StronglySorted path_lt l' -> (forall x, In x l <-> In x l') -> l = l'.
Proof.
  intros l l' H. revert l'. induction H as [|a l S IH F]; intros l' H' E.
  - destruct l' as [|b l']; [reflexivity|]. destruct (proj2 (E b) (or_introl eq_refl)).
  - destruct l' as [|b l']; [destruct (proj1 (E a) (or_introl eq_refl))|]. inversion H' as [|? ? S' F']; subst.
    rewrite Forall_forall in F, F'.
    assert (a = b) as ->.
    { destruct (proj1 (E a) (or_introl eq_refl)) as [->|Ia]; [reflexivity|]. destruct (proj2 (E b) (or_introl eq_refl)) as [->|Ib]; [reflexivity|].
      destruct (path_lt_irrefl a). eapply path_lt_trans; eauto. }
    f_equal. apply IH; [exact S'|]. intro x. split; intro I.
    + destruct (proj1 (E x) (or_intror I)) as [->|K]; [destruct (path_lt_irrefl _ (F _ I))|exact K].
    + destruct (proj2 (E x) (or_intror I)) as [->|K]; [destruct (path_lt_irrefl _ (F' _ I))|exact K].
Qed.
Lemma sorted_filter : forall A (R : A -> A -> Prop) f l, StronglySorted R l -> StronglySorted R (filter f l).
Proof.
  intros A R f l H. induction H as [|a l S IH F]; [constructor|]. cbn. destruct (f a); [|exact IH]. constructor; [exact IH|].
  rewrite Forall_forall in *. intros x I. apply filter_In in I as [I _]. auto.
Qed.

(** The accounts of [k] stand together. *)
Lemma together : forall k l, StronglySorted path_lt l -> Forall (fun q => q <> []) l ->
  exists l1 l2, l = l1 ++ filter (under k) l ++ l2 /\ Forall (fun q => under k q = false) (l1 ++ l2).
Proof.
  intros k l H. induction H as [|a l S IH F]; intro N; [exists [], []; split; [reflexivity|constructor]|].
  inversion_clear N as [|? ? Na N']. destruct (IH N') as (l1 & l2 & E & U). cbn [filter]. destruct (under k a) eqn:Ka.
  - assert (Z : l1 = [] \/ filter (under k) l = []).
    { destruct l1 as [|b l1]; [now left|]. destruct (filter (under k) l) as [|c m] eqn:Fl; [now right|exfalso].
      assert (Ic : In c l /\ under k c = true) by (apply filter_In; rewrite Fl; now left).
      rewrite E in S, F. rewrite Forall_forall in F. assert (Lb : path_lt a b) by (apply F; now left).
      cbn in S. inversion S as [|? ? _ Fb]; subst. rewrite Forall_forall in Fb. assert (Lc : path_lt b c) by (apply Fb; apply in_app_iff; right; now left).
      cbn in U. inversion_clear U as [|? ? Ub _]. destruct a as [|x a]; [discriminate|]. destruct c as [|z c]; [destruct Ic; discriminate|].
      cbn in Ka. apply str_eqb_eq in Ka. destruct Ic as [_ Kc]. cbn in Kc. apply str_eqb_eq in Kc. subst x z. destruct b as [|y b]; [inversion Lb|].
      cbn in Ub. assert (Ny : y <> k) by (intro; subst y; rewrite str_eqb_refl in Ub; discriminate).
      inversion Lb as [|? ? ? ? L1|]; subst; [|congruence]. inversion Lc as [|? ? ? ? L2|]; subst; [|congruence].
      pose proof (str_ltb_trans _ _ _ L1 L2) as X. rewrite str_ltb_irrefl in X. discriminate. }
    destruct Z as [-> | Z].
    + exists [], l2. split; [cbn; now rewrite E at 1|exact U].
    + rewrite Z in E |- *. exists [], l. split; [reflexivity|]. cbn. rewrite E. exact U.
  - exists (a :: l1), l2. split; [cbn; now rewrite E at 1|]. cbn. constructor; assumption.
Qed.

Lemma under_filter : forall k q ps, under k q = true -> filter (below q) ps = filter (below q) (filter (below [k]) ps).
Proof.
  intros k [|x q] ps U; [discriminate|]. cbn in U. apply str_eqb_eq in U. subst x. induction ps as [|p ps IH]; [reflexivity|].
  assert (X : below (k :: q) p = true -> below [k] p = true).
  { unfold below. destruct (components p) as [|y c]; [discriminate|]. cbn. destruct (str_eqb k y); [reflexivity|discriminate]. }
  cbn [filter]. destruct (below [k] p) eqn:B; cbn [filter]; [now rewrite IH|].
  destruct (below (k :: q) p); [discriminate (X eq_refl)|exact IH].
Qed.

Section Two.
Variable k : str.
Variables ps ps' : list posting.
Hypothesis Same : map plainly (filter (below [k]) ps) = map plainly (filter (below [k]) ps').

Lemma apart_total : forall q, under k q = true -> total (filter (below q) ps) = total (filter (below q) ps').
Proof. intros q U. rewrite (under_filter k q ps U), (under_filter k q ps' U). rewrite <- (total_plainly (filter (below q) (filter (below [k]) ps))), <- (total_plainly (filter (below q) (filter (below [k]) ps'))), <- (filter_plainly q (filter (below [k]) ps)), <- (filter_plainly q (filter (below [k]) ps')). now rewrite Same. Qed.
Lemma apart_first : forall q, under k q = true -> first_commodity (filter (below q) ps) = first_commodity (filter (below q) ps').
Proof. intros q U. rewrite (under_filter k q ps U), (under_filter k q ps' U). rewrite <- (first_plainly (filter (below q) (filter (below [k]) ps))), <- (first_plainly (filter (below q) (filter (below [k]) ps'))), <- (filter_plainly q (filter (below [k]) ps)), <- (filter_plainly q (filter (below [k]) ps')). now rewrite Same. Qed.
Lemma apart_line : forall q, under k q = true -> row_line ps q = row_line ps' q.
Proof. intros q U. unfold row_line. now rewrite (apart_total q U), (apart_first q U). Qed.
End Two.

Lemma prefix_under : forall k r q, r <> [] -> prefix r q -> under k q = true -> under k r = true.
Proof. intros k [|x r] q N [y ->] U; [contradiction|exact U]. Qed.

Lemma apart_shown : forall k ps ps' z q, map plainly (filter (below [k]) ps) = map plainly (filter (below [k]) ps') -> under k q = true ->
  shown z ps q -> shown z ps' q.
Proof.
  intros k ps ps' z q Same U [(p & I & K) H]. split.
  - assert (Ip : In (plainly p) (map plainly (filter (below [k]) ps))).
    { apply in_map, filter_In. split; [exact I|]. destruct q as [|x q]; [discriminate|]. cbn in U. apply str_eqb_eq in U. subst x.
      destruct K as [y E]. unfold below. rewrite E. cbn. now rewrite str_eqb_refl. }
    rewrite Same in Ip. apply in_map_iff in Ip as (p' & E & I'). apply filter_In in I' as [I' _]. exists p'. split; [exact I'|].
    unfold components in *. injection E as Ea _. now rewrite Ea.
  - destruct H as [H|H]; [now left|right]. intros r N Pr. rewrite <- (apart_total k ps ps' Same) by (eapply prefix_under; eauto). auto.
Qed.

(** The reports of [ps] and [ps'] have the same rows for [k]: they stand together,
    and the rest of each report is of other accounts. *)
Definition same_rows (k : str) (zero : bool) (ps ps' : list posting) (out out' : list str) : Prop :=
  exists l1 qs l2 l1' l2', StronglySorted path_lt (l1 ++ qs ++ l2) /\
    (forall q, In q qs <-> under k q = true /\ shown zero ps q) /\
    Forall (fun q => under k q = false) (l1 ++ l2) /\ Forall (fun q => under k q = false) (l1' ++ l2') /\
    out = complaints [] ps ++
      [unlines (map (row_line ps) l1 ++ map (row_line ps) qs ++ map (row_line ps) l2) ++ [10];
       lit "--------------------" ++ [10]; column [] (wrap64 (total ps)) ++ [10]] /\
    out' = complaints [] ps' ++
      [unlines (map (row_line ps') l1' ++ map (row_line ps) qs ++ map (row_line ps') l2') ++ [10];
       lit "--------------------" ++ [10]; column [] (wrap64 (total ps')) ++ [10]].

(** Two runs of balance without arguments, over whatever journals, dates and
    machines: when the postings to [k] and below are the same but for comments, so
    are its rows. *)
Theorem C110_rows : forall E O E' O' k sel sel', sane_clock E -> orders E -> sane_clock E' -> orders E' ->
  o_args O = [] -> o_args O' = [] -> o_flatten O = false -> o_collapse O = false -> o_flatten O' = false -> o_collapse O' = false ->
  o_show_zero O' = o_show_zero O -> r_status (balance_cmd E O) = SOk -> r_status (balance_cmd E' O') = SOk ->
  picks E O [] (txns 0 (fst (stream E O))) sel -> picks E' O' [] (txns 0 (fst (stream E' O'))) sel' ->
  map plainly (filter (below [k]) (taken sel)) = map plainly (filter (below [k]) (taken sel')) ->
  same_rows k (o_show_zero O) (taken sel) (taken sel') (r_out (balance_cmd E O)) (r_out (balance_cmd E' O')).
Proof.
  intros E O E' O' k sel sel' C Or C' Or' A A' Ff Fc Ff' Fc' Z Ok Ok' P P' Same.
  assert (F : filters_for E (o_args O) []) by (rewrite A; split; constructor).
  assert (F' : filters_for E' (o_args O') []) by (rewrite A'; split; constructor).
  assert (One : forall E O sel, sane_clock E -> orders E -> filters_for E (o_args O) [] -> o_flatten O = false -> o_collapse O = false -> r_status (balance_cmd E O) = SOk ->
    picks E O [] (txns 0 (fst (stream E O))) sel ->
    exists l1 qs l2, StronglySorted path_lt (l1 ++ qs ++ l2) /\ (forall q, In q qs <-> under k q = true /\ shown (o_show_zero O) (taken sel) q) /\
      Forall (fun q => under k q = false) (l1 ++ l2) /\ StronglySorted path_lt qs /\
      r_out (balance_cmd E O) = complaints [] (taken sel) ++
      [unlines (map (row_line (taken sel)) l1 ++ map (row_line (taken sel)) qs ++ map (row_line (taken sel)) l2) ++ [10];
       lit "--------------------" ++ [10]; column [] (wrap64 (total (taken sel))) ++ [10]]).
  { clear. intros E O sel C Or F Ff Fc Ok P. destruct (C61_rows E O [] C Or F Ff Fc Ok) as (sel1 & rows & P1 & Io & I & Q).
    assert (T : taken sel1 = taken sel).
    { now rewrite (taken_whole _ _ _ _ P1), (taken_whole _ _ _ _ P), (picks_selected _ _ _ _ _ _ P1 P). }
    rewrite T in *. clear P1 T.
    assert (Nn : Forall (fun q => q <> []) (map fst rows)).
    { apply Forall_forall. intros q Iq. apply in_map_iff in Iq as ([q0 d] & <- & Iq). now apply I in Iq. }
    destruct (together k (map fst rows) Io Nn) as (l1 & l2 & El & Fu). exists l1, (filter (under k) (map fst rows)), l2.
    split; [rewrite <- El; exact Io|]. split; [|split; [exact Fu|split; [apply sorted_filter; exact Io|]]].
    - intro q. rewrite filter_In, in_map_iff. split.
      + intros [([q0 d] & <- & Iq) U]. apply I in Iq as (_ & S & _). auto.
      + intros [U S]. split; [|exact U]. destruct (holds_some (taken sel) q) as [d Hd]. exists (q, d). split; [reflexivity|]. apply I.
        split; [intro; subst q; discriminate|auto].
    - rewrite Q. do 4 f_equal. rewrite <- !map_app, <- El, map_map. reflexivity. }
  destruct (One E O sel C Or F Ff Fc Ok P) as (l1 & qs & l2 & So & Iq & Fu & Sq & Q).
  destruct (One E' O' sel' C' Or' F' Ff' Fc' Ok' P') as (l1' & qs' & l2' & So' & Iq' & Fu' & Sq' & Q'). clear One.
  assert (Eq : qs' = qs).
  { apply paths_same; [assumption..|]. intro q. rewrite Iq, Iq', Z. split; intros [U S]; (split; [exact U|]).
    - eapply apart_shown; [symmetry; exact Same|exact U|exact S].
    - eapply apart_shown; [exact Same|exact U|exact S]. }
  subst qs'. exists l1, qs, l2, l1', l2'. split; [exact So|]. split; [exact Iq|]. split; [exact Fu|]. split; [exact Fu'|]. split; [exact Q|].
  rewrite Q'. do 5 f_equal. f_equal. apply map_ext_in. intros q J. symmetry. apply (apart_line k); [exact Same|]. now apply Iq in J.
Qed.

(** A journal to which another is appended that posts nothing to [k] or below. *)
Theorem C110_appended : forall E O p a b k s1 s2 s, journal_path E O = Some p -> line_start a -> steady E -> sane_clock E -> orders E ->
  o_args O = [] -> o_flatten O = false -> o_collapse O = false ->
  picks (holding E p a) O [] (txns 0 (fst (stream (holding E p a) O))) s1 -> picks (holding E p b) O [] (txns 0 (fst (stream (holding E p b) O))) s2 ->
  picks (holding E p (a ++ LF :: b)) O [] (txns 0 (fst (stream (holding E p (a ++ LF :: b)) O))) s ->
  r_status (balance_cmd (holding E p (a ++ LF :: b)) O) = SOk ->
  Forall (fun q => below [k] q = false) (taken s2) ->
  r_status (balance_cmd (holding E p a) O) = SOk /\
  same_rows k (o_show_zero O) (taken s1) (taken s1 ++ taken s2) (r_out (balance_cmd (holding E p a) O)) (r_out (balance_cmd (holding E p (a ++ LF :: b)) O)).
Proof.
  intros E O p a b k s1 s2 s J St Sd C Or A Ff Fc P1 P2 P Ok N.
  assert (F : forall x, filters_for (holding E p x) (o_args O) []) by (intro x; rewrite A; split; constructor).
  assert (Ok1 : r_status (balance_cmd (holding E p a) O) = SOk).
  { pose proof (proj1 (proj1 (C61_balance (holding E p (a ++ LF :: b)) O [] C Or (F _))) Ok) as [R (z & Pz & Hz)].
    apply (proj1 (C61_balance (holding E p a) O [] C Or (F _))). pose proof (proj1 (joined_readable E O p a b J St Sd) R) as [R1 _].
    split; [exact R1|]. exists s1. split; [exact P1|].
    destruct (joined_picks E O p a b J St Sd [] s1 s2 z (proj1 R) P1 P2 Pz) as [_ Pm]. apply (Permutation_Forall Pm) in Hz. now apply Forall_app in Hz. }
  split; [exact Ok1|].
  pose proof (proj1 (proj1 (C61_balance (holding E p (a ++ LF :: b)) O [] C Or (F _))) Ok) as [R _].
  destruct (joined_picks E O p a b J St Sd [] s1 s2 s (proj1 R) P1 P2 P) as [Sl _].
  assert (T : taken s = taken s1 ++ taken s2).
  { now rewrite (taken_whole _ _ _ _ P), (taken_whole _ _ _ _ P1), (taken_whole _ _ _ _ P2), Sl, flat_map_app. }
  rewrite <- T. apply C110_rows; auto. rewrite T, filter_app.
  assert (X : filter (below [k]) (taken s2) = []).
  { clear - N. induction N as [|q l H _ IH]; [reflexivity|]. cbn [filter]. now rewrite H. }
  now rewrite X, app_nil_r.
Qed.

Definition third_text : str := lit "2021-03-05 C" ++ [10] ++ lit "    w    $-2" ++ [10] ++ lit "    v:y    $2" ++ [10].
Example C110_example : let E := env1 [] in let O := opts_zero [] [] in let at_ x := holding E (lit "j") x in
  journal_path E O = Some (lit "j") /\ line_start text_same /\ steady E /\ sane_clock E /\ orders E /\
  (exists s1 s2 s, picks (at_ text_same) O [] (txns 0 (fst (stream (at_ text_same) O))) s1 /\ picks (at_ third_text) O [] (txns 0 (fst (stream (at_ third_text) O))) s2 /\
     picks (at_ (text_same ++ LF :: third_text)) O [] (txns 0 (fst (stream (at_ (text_same ++ LF :: third_text)) O))) s /\
     length (taken s2) = 2%nat /\ Forall (fun q => below [lit "x"] q = false) (taken s2)) /\
  balance_cmd (at_ text_same) O =
    Outcome ((lit "               $4.50  x" ++ [10] ++ lit "               $1.00    y" ++ [10] ++ lit "              $-4.50  z" ++ [10]) :: ending) SOk /\
  r_status (balance_cmd (at_ (text_same ++ LF :: third_text)) O) = SOk.
Proof.
  cbn zeta. split; [reflexivity|]. split; [right; eexists; unfold text_same; rewrite !app_assoc; reflexivity|]. split; [intro n; split; reflexivity|].
  split; [apply env1_clock|]. split; [apply env1_orders|]. split; [|split; vm_compute; reflexivity].
  set (u1 := txns 0 (fst (stream (holding (env1 []) (lit "j") text_same) (opts_zero [] [])))).
  set (u2 := txns 0 (fst (stream (holding (env1 []) (lit "j") third_text) (opts_zero [] [])))).
  set (u3 := txns 0 (fst (stream (holding (env1 []) (lit "j") (text_same ++ LF :: third_text)) (opts_zero [] [])))).
  vm_compute in u1, u2, u3.
  exists (map (fun u => (u, t_postings (u_txn u))) u1), (map (fun u => (u, t_postings (u_txn u))) u2), (map (fun u => (u, t_postings (u_txn u))) u3).
  subst u1 u2 u3. cbn [map].
  split; [|split; [|split; [|split; [reflexivity|repeat constructor]]]];
    repeat (apply PickIt; [apply plain_within; [repeat split|vm_compute; discriminate]|reflexivity|reflexivity|reflexivity|]); apply PickNone.
Qed.
