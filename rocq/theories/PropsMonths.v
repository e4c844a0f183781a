(** * C120: a budget depends only on what is earned, assigned and spent in each month *)
From Verif Require Import Base BaseFacts Utf8 Unicode GoTime Strconv Display Journal JournalFacts Lexer Parser ParserFacts Account Reporting Budget Cmd Spec TextSpec
  TreeSpec ReportSpec CmdSpec CmdFacts FlatSpec Sample PropsCmd PropsBalance PropsAgain BudgetSpec BudgetFacts PropsBudget Main MainSpec PropsMain PropsMachine PropsArgs PropsConcat PropsJoin PropsJoinMore PropsOrder PropsSums.

(** Of both there is one if there is of the other, and the sums agree. *)
Definition same_sum (f : move -> bool) (ms ms' : list move) : Prop :=
  existsb f ms' = existsb f ms /\ zero64 (sum_of f ms' - sum_of f ms).
(** The same is earned, and to each category the same is assigned and for it the
    same spent, not counting the categories below. *)
Definition same_moves (ms ms' : list move) : Prop :=
  (ms' = [] <-> ms = []) /\ same_sum is_earn ms ms' /\
  forall q, same_sum (fun m => is_assign m && names q m) ms ms' /\ same_sum (fun m => is_spend m && names q m) ms ms'.
Definition same_months (log log' : list move) : Prop := forall y m, same_moves (month y m log) (month y m log').

(** ** Sums by category *)
Definition same_cat (a q : list str) : bool := if list_str_dec a q then true else false.
Lemma same_cat_iff : forall a q, same_cat a q = true <-> a = q.
Proof. intros a q. unfold same_cat. destruct (list_str_dec a q); split; congruence. Qed.

Lemma sum_of_cons : forall f m ms, sum_of f (m :: ms) = (if f m then quantity (mv_posting m) else 0) + sum_of f ms.
Proof. intros f m ms. unfold sum_of. cbn [filter]. destruct (f m); [apply total_cons|reflexivity]. Qed.
Lemma sums_step : forall g m ms cats, sums (map (fun a => sum_of (fun m => g m && same_cat a (category m)) (m :: ms)) cats) =
  sums (map (fun a => if g m && same_cat a (category m) then quantity (mv_posting m) else 0) cats) +
  sums (map (fun a => sum_of (fun m => g m && same_cat a (category m)) ms) cats).
Proof. intros g m ms cats. induction cats as [|a cats IH]; [reflexivity|]. cbn [map sums]. rewrite IH, sum_of_cons. lia. Qed.
Lemma sums_at : forall x (b : bool) v cats, NoDup cats -> sums (map (fun a => if b && same_cat a x then v else 0) cats) = if b && existsb (fun a => same_cat a x) cats then v else 0.
Proof.
  intros x b v cats N. destruct b; cbn [andb]; [|apply sums_zero]. induction N as [|a cats Na N IH]; [reflexivity|]. cbn [map sums existsb]. rewrite IH.
  destruct (same_cat a x) eqn:E; cbn [orb]; [|destruct (existsb _ _); lia]. apply same_cat_iff in E. subst a.
  destruct (existsb (fun a => same_cat a x) cats) eqn:Ex; [|lia]. apply existsb_exists in Ex as (y & I & Y). apply same_cat_iff in Y. subst y. contradiction.
Qed.
Lemma sum_by_category : forall g h cats ms, NoDup cats -> (forall m, In m ms -> In (category m) cats) ->
  sum_of (fun m => g m && h (category m)) ms = sums (map (fun a => sum_of (fun m => g m && same_cat a (category m)) ms) (filter h cats)).
Proof.
  intros g h cats ms N. induction ms as [|m ms IH]; intro H; [cbn; now rewrite sums_zero|].
  rewrite sums_step, sums_at by (apply NoDup_filter, N). rewrite <- IH by (intros; apply H; now right). rewrite sum_of_cons.
  assert (X : existsb (fun a => same_cat a (category m)) (filter h cats) = h (category m)).
  { destruct (h (category m)) eqn:E.
    - apply existsb_exists. exists (category m). split; [|now apply same_cat_iff]. apply filter_In. split; [apply H; now left|exact E].
    - destruct (existsb _ _) eqn:Ex; [|reflexivity]. apply existsb_exists in Ex as (y & I & Y). apply same_cat_iff in Y. subst y. apply filter_In in I as [_ I]. congruence. }
  now rewrite X.
Qed.
Lemma sum_of_ext : forall f g ms, (forall m, f m = g m) -> sum_of f ms = sum_of g ms.
Proof. intros f g ms H. unfold sum_of. now rewrite (filter_ext f g H). Qed.

Definition real (is : move -> bool) (m : move) : bool := is m && negb (is_earn m) && negb (to_fund m).
Lemma names_real : forall is a m, (is m && names a m) = (real is m && same_cat a (category m)).
Proof. intros. unfold names, real, same_cat. now rewrite !andb_assoc. Qed.
Lemma concerns_real : forall is q m, (is m && concerns q m) = (real is m && prefixb q (category m)).
Proof. intros. unfold concerns, real. now rewrite !andb_assoc. Qed.

Lemma same_concerned : forall is ms ms' q, (forall a, same_sum (fun m => is m && names a m) ms ms') ->
  same_sum (fun m => is m && concerns q m) ms ms'.
Proof.
  intros is ms ms' q H. split.
  - apply eq_true_iff_eq. rewrite !existsb_exists.
    assert (X : forall l l', (forall a, existsb (fun m => is m && names a m) l = existsb (fun m => is m && names a m) l') ->
      (exists x, In x l /\ is x && concerns q x = true) -> exists x, In x l' /\ is x && concerns q x = true).
    { intros l l' S (x & I & C). rewrite concerns_real in C. apply andb_prop in C as [C1 C2].
      assert (Y : existsb (fun m => is m && names (category x) m) l = true).
      { apply existsb_exists. exists x. split; [exact I|]. rewrite names_real, C1. now apply same_cat_iff. }
      rewrite S in Y. apply existsb_exists in Y as (y & J & Y). exists y. split; [exact J|]. rewrite names_real in Y. apply andb_prop in Y as [Y1 Y2].
      apply same_cat_iff in Y2. rewrite concerns_real, Y1, <- Y2. exact C2. }
    split; apply X; intro a; [|symmetry]; apply H.
  - rewrite !(sum_of_ext (fun m => is m && concerns q m) _ _ (concerns_real is q)).
    set (cats := nodup list_str_dec (map category (ms ++ ms'))). assert (N : NoDup cats) by apply NoDup_nodup.
    rewrite (sum_by_category (real is) (prefixb q) cats ms' N), (sum_by_category (real is) (prefixb q) cats ms N).
    + assert (G : forall l, zero64 (sums (map (fun a => sum_of (fun m => real is m && same_cat a (category m)) ms') l) -
        sums (map (fun a => sum_of (fun m => real is m && same_cat a (category m)) ms) l))).
      { induction l as [|a l IH]; [reflexivity|]. cbn [map sums]. pose proof (proj2 (H a)) as Ha.
        rewrite !(sum_of_ext (fun m => is m && names a m) _ _ (names_real is a)) in Ha. unfold zero64 in *.
        match goal with |- (?A + ?B - (?C + ?D)) mod _ = 0 => replace (A + B - (C + D)) with ((A - C) + (B - D)) by lia end.
        rewrite Z.add_mod, Ha, IH by discriminate. reflexivity. }
      apply G.
    + intros m I. apply nodup_In, in_map, in_or_app. now left.
    + intros m I. apply nodup_In, in_map, in_or_app. now right.
Qed.

(** ** The months, the categories and the lines *)
Definition month_lt (a b : Z * Z) : Prop := fst a < fst b \/ fst a = fst b /\ snd a < snd b.
Lemma months_same : forall l l', StronglySorted month_lt l -> StronglySorted month_lt l' -> (forall x, In x l <-> In x l') -> l = l'.
Proof.
  intros l l' S. revert l'. induction S as [|a l S IH F]; intros l' S' H.
  - destruct l' as [|b l']; [reflexivity|]. destruct (proj2 (H b) (or_introl eq_refl)).
  - destruct S' as [|b l' S' F']; [destruct (proj1 (H a) (or_introl eq_refl))|]. rewrite Forall_forall in F, F'.
    assert (Irr : forall x y, month_lt x y -> month_lt y x -> False) by (unfold month_lt; intros; lia).
    assert (a = b).
    { destruct (proj1 (H a) (or_introl eq_refl)) as [E|I]; [auto|]. destruct (proj2 (H b) (or_introl eq_refl)) as [E|J]; [auto|].
      exfalso. exact (Irr _ _ (F _ J) (F' _ I)). }
    subst b. f_equal. apply IH; [exact S'|]. intro x. split; intro I.
    + destruct (proj1 (H x) (or_intror I)) as [<-|J]; [exfalso; exact (Irr _ _ (F _ I) (F _ I))|exact J].
    + destruct (proj2 (H x) (or_intror I)) as [<-|J]; [exfalso; exact (Irr _ _ (F' _ I) (F' _ I))|exact J].
Qed.

Definition in_one (c : str) (m : move) : Prop := commodity_of (mv_posting m) = c.

Lemma last_const : forall c (l : list str), Forall (fun x => x = c) l -> last l [] = match l with [] => [] | _ => c end.
Proof. intros c l F. induction F as [|x l -> F IH]; [reflexivity|]. destruct l; [reflexivity|exact IH]. Qed.
Lemma shown_one : forall c k ms, Forall (in_one c) ms -> shown_commodity [k] ms = if existsb (names [k]) ms then c else [].
Proof.
  intros c k ms F. unfold shown_commodity. rewrite (last_const c).
  - induction F as [|m ms _ F IH]; [reflexivity|]. cbn [filter existsb]. destruct (names [k] m); [reflexivity|exact IH].
  - apply Forall_forall. intros x I. apply in_map_iff in I as (m & <- & I). apply filter_In in I as [I _]. rewrite Forall_forall in F. now apply F.
Qed.
Lemma income_one : forall c ms, Forall (in_one c) ms -> income_commodity ms = if existsb is_earn ms then c else [].
Proof.
  intros c ms F. unfold income_commodity. destruct (existsb is_earn ms) eqn:X.
  - apply existsb_exists in X as (m & I & M). now apply (one_commodity_of c is_earn ms m).
  - assert (filter is_earn ms = []) as ->; [|reflexivity]. clear F. induction ms as [|m ms IH]; [reflexivity|]. cbn [existsb filter] in *. apply orb_false_iff in X as [-> X]. auto.
Qed.

Lemma split_kinds : forall f ms, (forall m, is_earn m = true -> f m = false) ->
  existsb f ms = existsb (fun m => is_assign m && f m) ms || existsb (fun m => is_spend m && f m) ms.
Proof.
  intros f ms H. induction ms as [|m ms IH]; [reflexivity|]. cbn [existsb]. rewrite IH. specialize (H m).
  unfold is_assign, is_spend, is_earn in *. destruct (mv_type m); cbn [andb]; [| |rewrite H by reflexivity];
    destruct (f m), (existsb (fun m => _ && f m) ms), (existsb (fun m => match mv_type m with ExpensePosting => true | _ => false end && f m) ms); reflexivity.
Qed.

Lemma block_same : forall c y m ms ms' b b', Forall (in_one c) ms -> Forall (in_one c) ms' -> same_moves ms ms' ->
  month_block y m ms b -> month_block y m ms' b' -> b' = b.
Proof.
  intros c y m ms ms' b b' U U' (_ & (E1 & E2) & H) B B'. destruct B as [cs [S I]], B' as [cs' [S' I']].
  assert (Ex : forall q, existsb (concerns q) ms' = existsb (concerns q) ms).
  { intro q. rewrite !(split_kinds (concerns q)) by (intros x X; unfold concerns; now rewrite X).
    rewrite (proj1 (same_concerned is_assign ms ms' q (fun a => proj1 (H a)))), (proj1 (same_concerned is_spend ms ms' q (fun a => proj2 (H a)))). reflexivity. }
  assert (cs' = cs) as -> by (apply ascending_same; [exact S'|exact S|intro k; rewrite I, I', Ex; reflexivity]).
  assert (He : month_heading y m ms' = month_heading y m ms).
  { unfold month_heading. rewrite !(income_one c), E1 by assumption.
    assert (wrap64 (- earned ms') = wrap64 (- earned ms)) as ->; [|reflexivity]. apply zero_wrap. unfold earned, zero64 in *.
    replace (- sum_of is_earn ms' - - sum_of is_earn ms) with (- (sum_of is_earn ms' - sum_of is_earn ms)) by lia. now apply Z.mod_opp_l_z. }
  rewrite He. do 2 f_equal. apply map_ext. intro k.
  destruct (same_concerned is_assign ms ms' [k] (fun a => proj1 (H a))) as [_ Za]. destruct (same_concerned is_spend ms ms' [k] (fun a => proj2 (H a))) as [_ Zs].
  fold (assigned [k] ms) (assigned [k] ms') in Za. fold (spent [k] ms) (spent [k] ms') in Zs.
  assert (Nm : existsb (names [k]) ms' = existsb (names [k]) ms).
  { rewrite !(split_kinds (names [k])) by (intros x X; unfold names; now rewrite X). now rewrite (proj1 (proj1 (H [k]))), (proj1 (proj2 (H [k]))). }
  unfold budget_line. rewrite !(shown_one c), Nm by assumption.
  assert (wrap64 (assigned [k] ms') = wrap64 (assigned [k] ms)) as -> by (now apply zero_wrap).
  assert (wrap64 (- spent [k] ms') = wrap64 (- spent [k] ms)) as ->.
  { apply zero_wrap. unfold zero64 in *. replace (- spent [k] ms' - - spent [k] ms) with (- (spent [k] ms' - spent [k] ms)) by lia. now apply Z.mod_opp_l_z. }
  assert (wrap64 (assigned [k] ms' - spent [k] ms') = wrap64 (assigned [k] ms - spent [k] ms)) as ->; [|reflexivity].
  apply zero_wrap. unfold zero64 in *.
  replace (assigned [k] ms' - spent [k] ms' - (assigned [k] ms - spent [k] ms)) with ((assigned [k] ms' - assigned [k] ms) + - (spent [k] ms' - spent [k] ms)) by lia.
  assert (Zn : (- (spent [k] ms' - spent [k] ms)) mod two64 = 0) by (apply Z.mod_opp_l_z; [discriminate|exact Zs]).
  rewrite Z.add_mod, Za, Zn by discriminate. reflexivity.
Qed.

Lemma months_nonempty : forall log l, months_of log l -> forall y m, In (y, m) l <-> month y m log <> [].
Proof.
  intros log l [_ H] y m. rewrite H. unfold month. split.
  - intros (mv & I & Y & M) Q. assert (J : In mv (filter (in_month y m) log)).
    { apply filter_In. split; [exact I|]. unfold in_month. now rewrite Y, M, !Z.eqb_refl. }
    rewrite Q in J. destruct J.
  - intro N. destruct (filter (in_month y m) log) as [|mv r] eqn:Q; [contradiction|]. assert (J : In mv (filter (in_month y m) log)) by (rewrite Q; now left).
    apply filter_In in J as [J B]. unfold in_month in B. apply andb_prop in B as [B1 B2]. apply Z.eqb_eq in B1, B2. eauto.
Qed.

Lemma report_months : forall c log log' l l' bs bs', Forall (in_one c) log -> Forall (in_one c) log' -> same_months log log' ->
  months_of log l -> months_of log' l' ->
  Forall2 (fun ym b => month_block (fst ym) (snd ym) (month (fst ym) (snd ym) log) b) l bs ->
  Forall2 (fun ym b => month_block (fst ym) (snd ym) (month (fst ym) (snd ym) log') b) l' bs' -> bs' = bs.
Proof.
  intros c log log' l l' bs bs' U U' S M M' B B'. pose proof (months_nonempty _ _ M) as X. pose proof (months_nonempty _ _ M') as X'.
  assert (l' = l) as ->.
  { apply months_same; [apply M'|apply M|]. intros [y m]. rewrite X, X'. destruct (S y m) as [Q _]. now rewrite Q. }
  assert (Um : forall lg y m, Forall (in_one c) lg -> Forall (in_one c) (month y m lg)).
  { intros lg y m F. rewrite Forall_forall in *. intros x I. apply filter_In in I as [I _]. auto. }
  clear M M' X X'. revert bs' B'. induction B as [|[y m] b l bs H B IH]; intros bs' B'; inversion B' as [|? b' ? bs'' H' B'']; subst; [reflexivity|].
  f_equal; [|auto]. cbn [fst snd] in *. eapply (block_same c); [| | |exact H|exact H']; auto.
Qed.

Lemma moves_perm : forall l l', Permutation l l' -> same_months l l'.
Proof.
  intros l l' P y m. assert (Q : Permutation (month y m l) (month y m l')) by (apply filter_perm, P).
  assert (K : forall f, same_sum f (month y m l) (month y m l')).
  { intro f. split.
    - apply existsb_set. intro x. split; apply Permutation_in; [now symmetry|exact Q].
    - rewrite (sum_of_perm f _ _ Q), Z.sub_diag. reflexivity. }
  split; [|split; [apply K|intro q; split; apply K]].
  split; intro N; rewrite N in Q; [symmetry in Q|]; apply Permutation_nil in Q; exact Q.
Qed.
Lemma same_months_trans : forall a b c, same_months a b -> same_months b c -> same_months a c.
Proof.
  intros a b c H H' y m. specialize (H y m). specialize (H' y m). destruct H as (N & E & H), H' as (N' & E' & H').
  assert (T : forall f x y z, same_sum f x y -> same_sum f y z -> same_sum f x z).
  { intros f x1 y1 z1 [A B] [A' B']. split; [congruence|]. unfold zero64 in *.
    replace (sum_of f z1 - sum_of f x1) with ((sum_of f z1 - sum_of f y1) + (sum_of f y1 - sum_of f x1)) by lia. rewrite Z.add_mod, B, B' by discriminate. reflexivity. }
  split; [now rewrite N'|]. split; [eapply T; eassumption|]. intro q. destruct (H q), (H' q). split; eapply T; eassumption.
Qed.

(** ** C120 *)

(** The journal's amounts are in the commodity [c]. *)
Definition journal_in (c : str) (evs : list event) : Prop :=
  (forall t p, In (ETxn t p) evs -> Forall (fun q => po_amount q <> None -> commodity_of q = c) (t_postings t)) /\
  (forall pt p, In (EPer pt p) evs -> Forall (fun q => po_amount q <> None -> commodity_of q = c) (t_postings (pt_txn pt))).
(** It spends on and assigns to categories of one level, and no budget entry begins
    with the fund. *)
Definition journal_flat (evs : list event) : Prop :=
  (forall t p, In (ETxn t p) evs -> Forall (fun q => firstn 1 (components q) = [lit "Expenses"] -> length (components q) = 2%nat) (t_postings t)) /\
  (forall pt p, In (EPer pt p) evs -> Forall (fun q => length (components q) = 1%nat) (t_postings (pt_txn pt)) /\
     forall q rest, t_postings (pt_txn pt) = q :: rest -> po_account q <> lit "_budget_root_").

Lemma history_posted : forall E O fs n evs log, history E O fs n evs log -> forall m, In m log ->
  (exists t p, In (ETxn t p) evs /\ In (mv_posting m) (t_postings t) /\
     (mv_type m = ExpensePosting /\ firstn 1 (components (mv_posting m)) = [lit "Expenses"] \/ mv_type m = IncomePosting)) \/
  (exists pt p, In (EPer pt p) evs /\ In (mv_posting m) (t_postings (pt_txn pt)) /\ mv_type m = EnvelopePosting).
Proof.
  intros E O fs n evs log H. induction H as [n|n pt p evs log H IH|n t p evs log W H IH|n t p ps evs log W Ht P Wh H IH]; intros m I.
  - destruct I.
  - apply in_app_or in I as [I|I].
    + right. exists pt, p. unfold allocations in I. apply in_map_iff in I as (q & <- & I). split; [now left|auto].
    + destruct (IH m I) as [(t & p' & X & Y)|(t & p' & X & Y)]; [left|right]; exists t, p'; (split; [now right|exact Y]).
  - destruct (IH m I) as [(t' & p' & X & Y)|(t' & p' & X & Y)]; [left|right]; exists t', p'; (split; [now right|exact Y]).
  - apply in_app_or in I as [I|I].
    + left. exists t, p. split; [now left|]. unfold activity in I. apply in_flat_map in I as (q & J & I).
      assert (Jt : In q (t_postings t)) by (eapply hits_in, Permutation_in; eauto).
      destruct (list_str_dec _ _) as [D|D]; [destruct I as [<-|[]]; auto|]. destruct (list_str_dec _ _); [destruct I as [<-|[]]; auto|destruct I].
    + destruct (IH m I) as [(t' & p' & X & Y)|(t' & p' & X & Y)]; [left|right]; exists t', p'; (split; [now right|exact Y]).
Qed.
Lemma history_in : forall c E O fs n evs log, history E O fs n evs log -> journal_in c evs -> Forall proper log -> Forall (in_one c) log.
Proof.
  intros c E O fs n evs log H [J1 J2] P. rewrite Forall_forall in *. intros m I. destruct (P m I) as [Pm _].
  destruct (history_posted _ _ _ _ _ _ H m I) as [(t & p & X & Y & _)|(t & p & X & Y & _)]; [specialize (J1 t p X)|specialize (J2 t p X)];
    rewrite Forall_forall in *; unfold in_one; auto.
Qed.
Lemma history_flat : forall E O fs n evs log, history E O fs n evs log -> journal_flat evs ->
  Forall (fun m => is_earn m = true \/ to_fund m = true \/ length (category m) = 1%nat) log.
Proof.
  intros E O fs n evs log H [J1 J2]. rewrite Forall_forall. intros m I. unfold is_earn, category, is_spend.
  destruct (history_posted _ _ _ _ _ _ H m I) as [(t & p & X & Y & [[Z D]|Z])|(t & p & X & Y & Z)]; rewrite Z; auto.
  - right; right. specialize (J1 t p X). rewrite Forall_forall in J1. specialize (J1 _ Y D).
    destruct (components (mv_posting m)) as [|? r]; cbn in *; lia.
  - right; right. destruct (J2 t p X) as [L _]. rewrite Forall_forall in L. exact (L _ Y).
Qed.

(** What goes to the fund follows something else of its month. *)
Definition covered (ms : list move) : Prop := forall pre m post, ms = pre ++ m :: post -> to_fund m = true ->
  exists m', In m' pre /\ to_fund m' = false /\ d_year (mv_date m') = d_year (mv_date m) /\ d_month (mv_date m') = d_month (mv_date m).
Lemma covered_app : forall a b, covered a -> covered b -> covered (a ++ b).
Proof.
  intros a b A B pre m post Q T. revert pre Q B. 
  assert (K : forall l pre, l ++ b = pre ++ m :: post -> (exists r, l = pre ++ m :: r) \/ exists r, pre = l ++ r /\ b = r ++ m :: post).
  { induction l as [|x a' IH]; intros pre Q; [right; exists pre; auto|]. destruct pre as [|y pre]; cbn [app] in Q; injection Q as <- Q2.
    - left. now exists a'.
    - destruct (IH _ Q2) as [(r & ->)|(r & -> & R)]; [left|right]; exists r; auto. }
  intros pre Q B. destruct (K a pre Q) as [(r & X)|(r & -> & R)]; [exact (A _ _ _ X T)|].
  destruct (B _ _ _ R T) as (m' & I & Y). exists m'. split; [apply in_or_app; now right|exact Y].
Qed.
Lemma history_covered : forall E O fs n evs log, history E O fs n evs log -> journal_flat evs -> covered log.
Proof.
  intros E O fs n evs log H. induction H as [n|n pt p evs log H IH|n t p evs log W H IH|n t p ps evs log W Ht P Wh H IH]; intros [J1 J2].
  - intros [|x pre] m post Q; discriminate.
  - apply covered_app; [|apply IH; split; intros x y I; [apply (J1 x y)|apply (J2 x y)]; now right].
    destruct (J2 pt p (or_introl eq_refl)) as [_ J]. unfold allocations. intros pre m post Q T.
    destruct (t_postings (pt_txn pt)) as [|q rest]; [destruct pre; discriminate|]. specialize (J q rest eq_refl).
    assert (N : to_fund (Move EnvelopePosting (pe_start (pt_period pt)) q) = false).
    { unfold to_fund. cbn [is_assign mv_type mv_posting andb]. destruct (str_eqb _ _) eqn:X; [apply str_eqb_eq in X; contradiction|reflexivity]. }
    cbn [map] in Q. destruct pre as [|x pre]; cbn [app] in Q; injection Q as <- Q; [congruence|].
    eexists. split; [now left|]. split; [exact N|].
    assert (I : In m (map (Move EnvelopePosting (pe_start (pt_period pt))) rest)) by (rewrite Q; apply in_or_app; right; now left).
    apply in_map_iff in I as (r & <- & _). auto.
  - apply IH. split; intros x y I; [apply (J1 x y)|apply (J2 x y)]; now right.
  - apply covered_app; [|apply IH; split; intros x y I; [apply (J1 x y)|apply (J2 x y)]; now right].
    intros pre m post Q T. exfalso. assert (I : In m (activity t ps)) by (rewrite Q; apply in_or_app; right; now left).
    unfold activity in I. apply in_flat_map in I as (q & _ & I). unfold to_fund in T.
    destruct (list_str_dec _ _); [destruct I as [<-|[]]; discriminate|]. destruct (list_str_dec _ _); [destruct I as [<-|[]]; discriminate|destruct I].
Qed.

(** A line about commodities. *)
Definition remark (s : str) : Prop := exists verb a b,
  s = lit "unhandled " ++ verb ++ lit " of unmatched commodities: '" ++ a ++ lit "' and '" ++ b ++ lit "'" ++ [10].

(** Two budgets, of whatever journals, dates and arguments, with the same earned,
    assigned and spent in each month, in one commodity: after what may be said
    about commodities the reports are the same; and with categories of one level
    nothing is said. *)
Theorem C120_sums : forall c E O fs log E' O' fs' log', sane_clock E -> orders E -> filters_for E (o_args O) fs ->
  sane_clock E' -> orders E' -> filters_for E' (o_args O') fs' ->
  r_status (budget_cmd E O) = SOk -> r_status (budget_cmd E' O') = SOk ->
  history E O fs 0 (fst (stream E O)) log -> history E' O' fs' 0 (fst (stream E' O')) log' ->
  Forall (in_one c) log -> Forall (in_one c) log' -> same_months log log' ->
  (exists said said' report, Forall remark (said ++ said') /\
     r_out (budget_cmd E O) = said ++ report /\ r_out (budget_cmd E' O') = said' ++ report) /\
  (journal_flat (fst (stream E O)) -> journal_flat (fst (stream E' O')) -> budget_cmd E' O' = budget_cmd E O).
Proof.
  intros c E O fs log E' O' fs' log' C Or F C' Or' F' Ok Ok' H H' U U' S.
  destruct (proj2 (C48_report E O fs C Or F) Ok) as (l & ms & bs & L & M & B & Q).
  destruct (proj2 (C48_report E' O' fs' C' Or' F') Ok') as (l' & ms' & bs' & L' & M' & B' & Q').
  pose proof (history_same _ _ _ _ _ _ H _ L) as P. pose proof (history_same _ _ _ _ _ _ H' _ L') as P'.
  assert (bs' = bs) as ->.
  { apply (report_months c l l' ms ms' bs bs'); auto; [eapply Permutation_Forall; eauto|eapply Permutation_Forall; eauto|].
    eapply same_months_trans; [apply moves_perm; symmetry; exact P|]. eapply same_months_trans; [exact S|apply moves_perm, P']. }
  split.
  - exists (objected [] l), (objected [] l'), (concat bs). split; [|auto].
    assert (Sy : forall post pre, Forall remark (objected pre post)).
    { assert (Ob : forall verb a b, Forall remark (objection verb a b)).
      { intros verb a b. unfold objection. destruct (str_eqb a b); [constructor|]. constructor; [exists verb, a, b; reflexivity|constructor]. }
      induction post as [|m post IH]; intro pre; [constructor|]. cbn [objected]. apply Forall_app. split; [|apply IH]. unfold objections.
      destruct (is_earn m); [apply Forall_app; auto|]. destruct (to_fund m); [apply Ob|].
      apply Forall_forall. intros s I. apply in_flat_map in I as (q & _ & I). exact (proj1 (Forall_forall _ _) (Ob _ _ _) s I). }
    apply Forall_app. auto.
  - intros J J'. pose proof (Permutation_Forall P U) as V. pose proof (Permutation_Forall P' U') as V'.
    rewrite (C64_quiet_partial c l V (history_flat _ _ _ _ _ _ L J) (history_covered _ _ _ _ _ _ L J)) in Q.
    rewrite (C64_quiet_partial c l' V' (history_flat _ _ _ _ _ _ L' J') (history_covered _ _ _ _ _ _ L' J')) in Q'.
    destruct (budget_cmd E O), (budget_cmd E' O'). cbn in *. congruence.
Qed.

(** ** Budgets with arguments: map order and order of arguments (C94, C114) *)

Lemma history_ordered : forall E o o' O fs n evs log, history (with_orders E o o') O fs n evs log <-> history E O fs n evs log.
Proof.
  intros E o o' O fs n evs log. split; induction 1; [constructor|constructor; auto|apply HistNot; auto|apply HistTxn; auto
    |constructor|constructor; auto|apply HistNot; auto|apply HistTxn; auto].
Qed.

Theorem C94_budget : forall E O fs o o', sane_clock E -> orders E -> orders (with_orders E o o') -> filters_for E (o_args O) fs ->
  let E' := with_orders E o o' in
  (r_status (budget_cmd E' O) = SOk <-> r_status (budget_cmd E O) = SOk) /\
  (forall c, r_status (budget_cmd E O) = SOk -> journal_in c (fst (stream E O)) ->
     (exists said said' report, Forall remark (said ++ said') /\ r_out (budget_cmd E O) = said ++ report /\ r_out (budget_cmd E' O) = said' ++ report) /\
     (journal_flat (fst (stream E O)) -> budget_cmd E' O = budget_cmd E O)).
Proof.
  intros E O fs o o' C Or Or' F E'. assert (C' : sane_clock E') by exact C. assert (F' : filters_for E' (o_args O) fs) by (apply makeFilters_spec; apply makeFilters_spec in F; exact F).
  destruct (C48_report E O fs C Or F) as [St _]. destruct (C48_report E' O fs C' Or' F') as [St' _].
  change (stream E' O) with (stream E O) in St'.
  assert (Eq : r_status (budget_cmd E' O) = SOk <-> r_status (budget_cmd E O) = SOk).
  { rewrite St, St'. split; intros [R (log & H & P)]; (split; [exact R|]); exists log; (split; [|exact P]); [apply history_ordered in H|apply history_ordered]; exact H. }
  split; [exact Eq|]. intros c Ok J. destruct (proj1 St Ok) as [R (log & H & P)].
  pose proof (history_in c _ _ _ _ _ _ H J P) as U. assert (H' : history E' O fs 0 (fst (stream E' O)) log) by (apply history_ordered; exact H).
  destruct (C120_sums c E O fs log E' O fs log C Or F C' Or' F' Ok (proj2 Eq Ok) H H' U U (moves_perm log log (Permutation_refl _))) as [A B].
  split; [exact A|]. intro Fl. apply B; exact Fl.
Qed.

Theorem C114_budget : forall E O A B fs, sane_clock E -> orders E -> filters_for E A fs -> (forall a, In a A <-> In a B) ->
  (r_status (budget_cmd E (with_args O B)) = SOk <-> r_status (budget_cmd E (with_args O A)) = SOk) /\
  (forall c, r_status (budget_cmd E (with_args O A)) = SOk -> journal_in c (fst (stream E O)) ->
     (exists said said' report, Forall remark (said ++ said') /\
        r_out (budget_cmd E (with_args O A)) = said ++ report /\ r_out (budget_cmd E (with_args O B)) = said' ++ report) /\
     (journal_flat (fst (stream E O)) -> budget_cmd E (with_args O B) = budget_cmd E (with_args O A))).
Proof.
  intros E O A B fs C Or F Same. destruct (C114_possible E O A B fs Or F Same) as (o & Or' & K). specialize (K Budget_ ltac:(discriminate)). cbn [does] in K.
  destruct (filters_exist E A B fs F) as (gs & G); [intros; now apply Same|].
  destruct (C94_budget E (with_args O B) gs o (e_tree_order E) C Or Or' G) as [St R]. cbn zeta in *. rewrite K in St, R. split; [symmetry; exact St|].
  intros c Ok J. destruct (R c (proj1 St Ok) J) as [(said & said' & rep & Sd & X & Y) Z]. split.
  - exists said', said, rep. split; [|auto]. apply Forall_app in Sd as [S1 S2]. apply Forall_app. auto.
  - intro Fl. symmetry. auto.
Qed.

Lemma journal_in_perm : forall c evs evs', Permutation evs evs' -> journal_in c evs -> journal_in c evs'.
Proof. intros c evs evs' P [A B]. split; intros t p I; [apply (A t p)|apply (B t p)]; exact (Permutation_in _ (Permutation_sym P) I). Qed.
Lemma journal_flat_perm : forall evs evs', Permutation evs evs' -> journal_flat evs -> journal_flat evs'.
Proof. intros evs evs' P [A B]. split; intros t p I; [apply (A t p)|apply (B t p)]; exact (Permutation_in _ (Permutation_sym P) I). Qed.

(** However the parts of a journal are ordered. *)
Theorem C92_budget_text : forall E O p xs ys fs c, journal_path E O = Some p -> steady E -> Forall line_start xs -> Permutation xs ys ->
  sane_clock E -> orders E -> filters_for E (o_args O) fs ->
  let E1 := holding E p (one_after_another xs) in let E2 := holding E p (one_after_another ys) in
  r_status (budget_cmd E1 O) = SOk -> journal_in c (fst (stream E1 O)) ->
  (exists said said' report, Forall remark (said ++ said') /\ r_out (budget_cmd E1 O) = said ++ report /\ r_out (budget_cmd E2 O) = said' ++ report) /\
  (journal_flat (fst (stream E1 O)) -> budget_cmd E2 O = budget_cmd E1 O).
Proof.
  intros E O p xs ys fs c Path Steady Starts Perm Clock Or F E1 E2 Ok J.
  destruct (C92_budget E O p Path Steady xs ys Starts Perm Clock Or fs F) as [B _].
  pose proof (proj1 B Ok) as Ok2. fold E1 in B. fold E2 in B, Ok2.
  assert (F1 : filters_for E1 (o_args O) fs) by (apply holding_filters; exact F). assert (F2 : filters_for E2 (o_args O) fs) by (apply holding_filters; exact F).
  destruct (C92_budget E O p Path Steady xs ys Starts Perm Clock Or fs F) as [_ T]. destruct (T Ok) as (l1 & l2 & (? & ? & H1 & _) & (? & ? & H2 & _) & P & _).
  fold E1 in H1. fold E2 in H2.
  destruct (proj1 (proj1 (C48_report E1 O fs Clock Or F1)) Ok) as [R (l & H & Pr)].
  destruct (order_stream E O p Path xs ys Starts Perm) as [_ Ps]. specialize (Ps (proj1 R)).
  assert (U1 : Forall (in_one c) l1).
  { eapply history_in; [exact H1|exact J|]. eapply Permutation_Forall; [exact (history_same _ _ _ _ _ _ H _ H1)|exact Pr]. }
  assert (U2 : Forall (in_one c) l2) by (eapply Permutation_Forall; eauto).
  destruct (C120_sums c E1 O fs l1 E2 O fs l2 Clock Or F1 Clock Or F2 Ok Ok2 H1 H2 U1 U2 (moves_perm l1 l2 P)) as [A C].
  split; [exact A|]. intro Fl. apply C; [exact Fl|]. eapply journal_flat_perm; eauto.
Qed.

Definition flatb (e : event) : bool :=
  match e with
  | ETxn t _ => forallb (fun q => negb (str_eqb (hd [] (components q)) (lit "Expenses")) || (length (components q) =? 2)%nat) (t_postings t)
  | EPer pt _ => forallb (fun q => (length (components q) =? 1)%nat) (t_postings (pt_txn pt)) &&
      match t_postings (pt_txn pt) with q :: _ => negb (str_eqb (po_account q) (lit "_budget_root_")) | [] => true end
  end.
Lemma flatb_ok : forall evs, forallb flatb evs = true -> journal_flat evs.
Proof.
  intros evs H. rewrite forallb_forall in H. split; intros t p I; specialize (H _ I); cbn [flatb] in H.
  - rewrite forallb_forall in H. apply Forall_forall. intros q J F. specialize (H q J). cbv beta in H.
    apply orb_prop in H as [H|H]; [|now apply Nat.eqb_eq]. destruct (components q) as [|x r]; [discriminate|]. cbn in *. injection F as ->. discriminate.
  - apply andb_prop in H as [A B]. rewrite forallb_forall in A. split; [apply Forall_forall; intros q J; now apply Nat.eqb_eq, A|].
    intros q rest Q X. rewrite Q, X in B. discriminate.
Qed.

Definition same_sumb (f : move -> bool) (ms ms' : list move) : bool :=
  Bool.eqb (existsb f ms') (existsb f ms) && (sum_of f ms' =? sum_of f ms).
Definition same_movesb (ms ms' : list move) : bool :=
  Bool.eqb (is_nil ms) (is_nil ms') && same_sumb is_earn ms ms' &&
  forallb (fun q => same_sumb (fun m => is_assign m && names q m) ms ms' && same_sumb (fun m => is_spend m && names q m) ms ms') (map category (ms ++ ms')).
Lemma same_sumb_ok : forall f ms ms', same_sumb f ms ms' = true -> same_sum f ms ms'.
Proof.
  intros f ms ms' H. unfold same_sumb in H. apply andb_prop in H as [A B]. apply Bool.eqb_prop in A. apply Z.eqb_eq in B. split; [exact A|].
  rewrite B, Z.sub_diag. reflexivity.
Qed.
Lemma unnamed : forall is q ms, ~ In q (map category ms) -> existsb (fun m => is m && names q m) ms = false /\ sum_of (fun m => is m && names q m) ms = 0.
Proof.
  intros is q ms N. induction ms as [|m ms IH]; [split; reflexivity|]. cbn [existsb]. rewrite sum_of_cons. cbn [map In] in N.
  destruct IH as [-> ->]; [tauto|]. rewrite names_real. unfold same_cat. destruct (list_str_dec q (category m)) as [X|X]; [exfalso; apply N; left; congruence|].
  rewrite andb_false_r. split; reflexivity.
Qed.
Lemma same_movesb_ok : forall ms ms', same_movesb ms ms' = true -> same_moves ms ms'.
Proof.
  intros ms ms' H. unfold same_movesb in H. apply andb_prop in H as [H C]. apply andb_prop in H as [A B]. rewrite forallb_forall in C.
  split; [destruct ms, ms'; cbn in A; split; congruence|]. split; [now apply same_sumb_ok|]. intro q.
  destruct (in_dec list_str_dec q (map category (ms ++ ms'))) as [I|N].
  - specialize (C q I). apply andb_prop in C as [C1 C2]. split; now apply same_sumb_ok.
  - rewrite map_app, in_app_iff in N. unfold same_sum.
    assert (N1 : ~ In q (map category ms)) by tauto. assert (N2 : ~ In q (map category ms')) by tauto.
    split; destruct (unnamed is_assign q ms N1) as [X1 Y1], (unnamed is_assign q ms' N2) as [X2 Y2], (unnamed is_spend q ms N1) as [X3 Y3], (unnamed is_spend q ms' N2) as [X4 Y4];
      rewrite ?X1, ?X2, ?X3, ?X4, ?Y1, ?Y2, ?Y3, ?Y4; split; reflexivity.
Qed.

(** The journal of C48's example written otherwise: the entries in another order,
    the salary and the groceries in two parts, an assignment in two. *)
Definition text_parts : str :=
  lit "~ 2020-11" ++ [10] ++ lit "    Groceries   £45" ++ [10; 10] ++
  lit "2020-11-20 Market" ++ [10] ++ lit "    Expenses:Groceries    £12.50" ++ [10] ++ lit "    Assets:Cash" ++ [10] ++ lit "    Expenses:Groceries    £17.50" ++ [10; 10] ++
  lit "2020-10-05 Grocery store" ++ [10] ++ lit "    Expenses:Groceries    £20.00" ++ [10] ++ lit "    Assets:Cash" ++ [10; 10] ++
  lit "~ 2020-10" ++ [10] ++ lit "    Clothing   £20" ++ [10] ++ lit "    Clothing   £30" ++ [10; 10] ++
  lit "2020-10-31 Clothes store" ++ [10] ++ lit "    Assets:Current" ++ [10] ++ lit "    Expenses:Clothing    £40.00" ++ [10; 10] ++
  lit "2020-10-01 Salary" ++ [10] ++ lit "    Assets:Current    £100" ++ [10] ++ lit "    Income:Job    £-60" ++ [10] ++ lit "    Income:Other" ++ [10; 10] ++
  lit "2020-11-01 Salary" ++ [10] ++ lit "    Assets:Current    £100" ++ [10] ++ lit "    Income:Job" ++ [10].
Definition E_parts := env0 [(lit "j", text_parts)].
Definition log_parts : list move := computed E_parts O_budget 0 (fst (stream E_parts O_budget)).

Example C120_example : sane_clock E_parts /\ orders E_parts /\ filters_for E_parts (o_args O_budget) [] /\
  r_status (budget_cmd E_budget O_budget) = SOk /\ r_status (budget_cmd E_parts O_budget) = SOk /\
  history E_budget O_budget [] 0 (fst (stream E_budget O_budget)) log_budget /\ history E_parts O_budget [] 0 (fst (stream E_parts O_budget)) log_parts /\
  Forall (in_one (lit "£")) log_budget /\ Forall (in_one (lit "£")) log_parts /\ same_months log_budget log_parts /\
  journal_flat (fst (stream E_budget O_budget)) /\ journal_flat (fst (stream E_parts O_budget)) /\ length log_budget = 9%nat /\ length log_parts = 12%nat.
Proof.
  split; [apply env0_sane|]. split; [apply env0_orders|]. split; [apply makeFilters_spec; reflexivity|]. split; [vm_compute; reflexivity|]. split; [vm_compute; reflexivity|].
  split; [exact log_budget_history|]. split; [apply computed_history; [apply env0_sane|apply no_flags; reflexivity]|].
  assert (U : forall log, forallb (fun m => str_eqb (commodity_of (mv_posting m)) (lit "£")) log = true -> Forall (in_one (lit "£")) log).
  { intros log H. rewrite forallb_forall in H. apply Forall_forall. intros m I. now apply str_eqb_eq, H. }
  split; [apply U; vm_compute; reflexivity|]. split; [apply U; vm_compute; reflexivity|].
  split; [|split; [apply flatb_ok; vm_compute; reflexivity|split; [apply flatb_ok; vm_compute; reflexivity|split; vm_compute; reflexivity]]].
  assert (Out : forall log y m, forallb (fun x => (d_year (mv_date x) =? 2020) && ((d_month (mv_date x) =? 10) || (d_month (mv_date x) =? 11))) log = true ->
    ~ (y = 2020 /\ (m = 10 \/ m = 11)) -> month y m log = []).
  { intros log y m H N. unfold month. induction log as [|x log IH]; [reflexivity|]. cbn [forallb] in H. apply andb_prop in H as [H1 H2]. cbn [filter].
    unfold in_month. destruct ((d_year (mv_date x) =? y) && (d_month (mv_date x) =? m)) eqn:Q; [|now apply IH]. exfalso. apply N.
    apply andb_prop in Q as [Q1 Q2]. apply andb_prop in H1 as [H1 H3]. rewrite Z.eqb_eq in *. split; [lia|]. apply orb_prop in H3 as [H3|H3]; rewrite Z.eqb_eq in H3; lia. }
  intros y m.
  destruct (Z.eq_dec y 2020) as [->|Ny]; [destruct (Z.eq_dec m 10) as [->|N1]; [|destruct (Z.eq_dec m 11) as [->|N2]]|].
  - apply same_movesb_ok. vm_compute. reflexivity.
  - apply same_movesb_ok. vm_compute. reflexivity.
  - rewrite !Out by (first [vm_compute; reflexivity|lia]). split; [tauto|]. split; [split; reflexivity|]. intro q. split; split; reflexivity.
  - rewrite !Out by (first [vm_compute; reflexivity|lia]). split; [tauto|]. split; [split; reflexivity|]. intro q. split; split; reflexivity.
Qed.

(** Only what is spent, maps iterated backwards. *)
Example C94_budget_example : let O := opts3 [] [] false [lit "Expenses"; lit "Job"] in let E := env1 [(lit "j", text_parts)] in
  let E' := with_orders E (fun _ _ l => rev l) (fun _ _ l => rev l) in
  sane_clock E /\ orders E /\ orders E' /\ (exists fs, filters_for E (o_args O) fs /\ length fs = 2%nat) /\ r_status (budget_cmd E O) = SOk /\
  journal_in (lit "£") (fst (stream E O)) /\ journal_flat (fst (stream E O)) /\ r_out (budget_cmd E O) <> r_out (budget_cmd E (opts3 [] [] false [])).
Proof.
  cbn zeta. split; [apply env1_clock|]. split; [apply env1_orders|]. split; [split; intros; symmetry; apply Permutation_rev|].
  split; [eexists; split; [apply makeFilters_spec; vm_compute; reflexivity|reflexivity]|]. split; [vm_compute; reflexivity|].
  assert (J : forall evs, forallb (fun e => forallb (fun q => str_eqb (commodity_of q) (lit "£")) (match e with ETxn t _ => t_postings t | EPer pt _ => t_postings (pt_txn pt) end)) evs = true -> journal_in (lit "£") evs).
  { intros evs J1. rewrite forallb_forall in J1.
    split; intros t p I; apply Forall_forall; intros q J _; specialize (J1 _ I); cbv beta iota in J1; rewrite forallb_forall in J1; now apply str_eqb_eq, J1. }
  split; [apply J; vm_compute; reflexivity|]. split; [apply flatb_ok; vm_compute; reflexivity|vm_compute; discriminate].
Qed.

(** The parts of C92's example. *)
Example C92_budget_text_example : let E := env1 [] in let O := opts_zero [] [] in let at_ xs := holding E (lit "j") (one_after_another xs) in
  parts1 <> parts2 /\ r_status (budget_cmd (at_ parts1) O) = SOk /\ journal_in (lit "$") (fst (stream (at_ parts1) O)) /\ journal_flat (fst (stream (at_ parts1) O)).
Proof.
  cbn zeta. split; [unfold parts1, parts2; intro X; injection X; discriminate|]. split; [vm_compute; reflexivity|].
  assert (J : forall evs, forallb (fun e => forallb (fun q => str_eqb (commodity_of q) (lit "$")) (match e with ETxn t _ => t_postings t | EPer pt _ => t_postings (pt_txn pt) end)) evs = true -> journal_in (lit "$") evs).
  { intros evs J1. rewrite forallb_forall in J1.
    split; intros t p I; apply Forall_forall; intros q J _; specialize (J1 _ I); cbv beta iota in J1; rewrite forallb_forall in J1; now apply str_eqb_eq, J1. }
  split; [apply J; vm_compute; reflexivity|apply flatb_ok; vm_compute; reflexivity].
Qed.
