(** * The columns of the reports line up: C107

    In characters, by the definition of UTF-8 ([spells], PropsUtf8.v). *)
From Verif Require Import Base BaseFacts Utf8 Utf8Facts GoTime Strconv Display Journal Parser ParserFacts Account Reporting Budget Cmd Spec JournalFacts TextSpec DateFacts AmountFacts
  TreeSpec TreeFacts ReportSpec ReportFacts CmdSpec StreamFacts CmdFacts BudgetSpec Sample PropsCmd PropsBalance PropsBudget PropsUtf8.

Notation blanks n := (repeat 32 n).

(** A line of the budget report: a name in a column of 30 characters at the left,
    three amounts in columns of 20 at the right, bars between.  What is too long for
    its column moves what follows. *)
Inductive budget_cells (name a b c : list Z) : list Z -> Prop :=
| BudgetCells : forall i j k l, (length name + i = Nat.max 30 (length name))%nat -> (j + length a = Nat.max 20 (length a))%nat ->
    (k + length b = Nat.max 20 (length b))%nat -> (l + length c = Nat.max 20 (length c))%nat ->
    budget_cells name a b c (name ++ blanks i ++ [32; 124; 32] ++ blanks j ++ a ++ [32; 124; 32] ++ blanks k ++ b ++ [32; 124; 32] ++ blanks l ++ c ++ [32; 124; 10]).

(** A line of the balance report: an amount in a column of 20 characters at the
    right, two spaces, two more for each level, the name. *)
Inductive balance_cells (a : list Z) (depth : nat) (name : list Z) : list Z -> Prop :=
| BalanceCells : forall i, (i + length a = Nat.max 20 (length a))%nat ->
    balance_cells a depth name (blanks i ++ a ++ blanks (2 + 2 * depth) ++ name).

(** ** Characters *)
Lemma spells_app : forall a ra, spells a ra -> forall b rb, spells b rb -> (b = [] \/ 0 <= hd 0 b < 128) -> spells (a ++ b) (ra ++ rb).
Proof.
  induction 1 as [|r bytes s rs C H IH|x s rs N H IH]; intros b rb B A.
  - exact B.
  - rewrite <- app_assoc. cbn [app]. constructor; auto.
  - cbn [app]. constructor; [|auto]. intros r bytes s' C Eq. destruct A as [->|A]; [rewrite app_nil_r in Eq; now apply (N r bytes s' C)|].
    assert (X : forall pre, (exists y, s ++ b = pre ++ y) -> Forall (fun z => 128 <= z) pre -> exists y, s = pre ++ y).
    { clear - A. intro pre. revert s. induction pre as [|p pre IHp]; intros s [y E] F; [now exists s|]. inversion_clear F.
      destruct s as [|z s]; [cbn [app] in E; subst b; cbn [hd app] in A; lia|]. cbn [app] in E. injection E as -> E. destruct (IHp s (ex_intro _ y E)) as [w ->]; [assumption|]. now exists w. }
    assert (Y : exists y, s = tl bytes ++ y).
    { apply X; [exists s'|]; destruct C; cbn [app tl] in *; try (injection Eq as _ Eq; exact Eq); repeat constructor; lia. }
    destruct Y as [y ->]. apply (N r bytes y C). destruct C; cbn [app tl] in *; injection Eq as ->; reflexivity.
Qed.

Lemma spells_ascii : forall a, Forall (fun c => 0 <= c < 128) a -> spells a a.
Proof. induction 1 as [|c a H F IH]; [constructor|]. change (c :: a) with ([c] ++ a) at 1. constructor; [now constructor|exact IH]. Qed.

Lemma spells_decode : forall s, spells s (decode s).
Proof. intro s. now apply C55_decoded. Qed.

Lemma ascii_before : forall a b rb, Forall (fun c => 0 <= c < 128) a -> spells b rb -> spells (a ++ b) (a ++ rb).
Proof.
  induction 1 as [|c a H F IH]; intro B; [exact B|]. cbn [app]. change (c :: a ++ b) with ([c] ++ a ++ b). constructor; [now constructor|auto].
Qed.

Lemma blanks_ascii : forall n, Forall (fun c => 0 <= c < 128) (blanks n).
Proof. intro n. apply Forall_forall. intros c I. apply repeat_spec in I. lia. Qed.

Lemma budget_cells_spelt : forall name a b c, exists row,
  spells (flush_left 30 name ++ lit " | " ++ flush_right 20 a ++ lit " | " ++ flush_right 20 b ++ lit " | " ++ flush_right 20 c ++ lit " |" ++ [10]) row /\
  budget_cells (decode name) (decode a) (decode b) (decode c) row.
Proof.
  intros name a b c. eexists. split; [|constructor].
  - unfold flush_left, flush_right. rewrite <- !app_assoc.
    apply spells_app; [apply spells_decode| |right; destruct (30 - length (decode name))%nat; cbn; lia].
    apply ascii_before; [apply blanks_ascii|]. apply (ascii_before (lit " | ")); [repeat constructor; cbn; lia|].
    apply ascii_before; [apply blanks_ascii|]. apply spells_app; [apply spells_decode| |right; cbn; lia].
    apply (ascii_before (lit " | ")); [repeat constructor; cbn; lia|].
    apply ascii_before; [apply blanks_ascii|]. apply spells_app; [apply spells_decode| |right; cbn; lia].
    apply (ascii_before (lit " | ")); [repeat constructor; cbn; lia|].
    apply ascii_before; [apply blanks_ascii|]. apply spells_app; [apply spells_decode| |right; cbn; lia].
    apply (spells_ascii (lit " |" ++ [10])). repeat constructor; cbn; lia.
  - lia.
  - lia.
  - lia.
  - lia.
Qed.

Lemma balance_cells_spelt : forall a depth name, exists row,
  spells (flush_right 20 a ++ [32; 32] ++ rep (2 * depth) 32 ++ name) row /\ balance_cells (decode a) depth (decode name) row.
Proof.
  intros a depth name. eexists. split; [|constructor].
  - unfold flush_right. rewrite <- app_assoc. apply ascii_before; [apply blanks_ascii|]. apply spells_app; [apply spells_decode| |right; cbn; lia].
    change ([32; 32] ++ rep (2 * depth) 32 ++ name) with (blanks (2 + 2 * depth) ++ name). apply ascii_before; [apply blanks_ascii|apply spells_decode].
  - lia.
Qed.

(** ** The budget report *)

(** Every line is of this form, and under the heading. *)
Theorem C107_budget : forall E O fs, sane_clock E -> orders E -> filters_for E (o_args O) fs -> r_status (budget_cmd E O) = SOk ->
  exists log, history E O fs 0 (fst (stream E O)) log /\
    forall y m k, existsb (concerns [k]) (month y m log) = true ->
      let l := month y m log in
      exists before between line row after,
        r_out (budget_cmd E O) = before ++ (lit "Category                       | Budgeted             | Activity             | Available            |" ++ [10]) ::
          (lit "--------------------------------------------------") :: (lit "---------------------------------------------------" ++ [10]) :: between ++ line :: after /\
        spells line row /\
        budget_cells (decode k) (decode (display_quantity (wrap64 (- spent [k] l)))) (decode (display_quantity (wrap64 (assigned [k] l))))
          (decode (shown_commodity [k] l ++ display_quantity (wrap64 (assigned [k] l - spent [k] l)))) row /\
        Forall (fun other => exists k' row', spells other row' /\
          budget_cells (decode k') (decode (display_quantity (wrap64 (- spent [k'] l)))) (decode (display_quantity (wrap64 (assigned [k'] l))))
            (decode (shown_commodity [k'] l ++ display_quantity (wrap64 (assigned [k'] l - spent [k'] l)))) row') between.
Proof.
  intros E O fs C Or F H. destruct (C48_report E O fs C Or F) as [_ R]. destruct (R H) as (log & l & bs & Hi & M & Fb & Q).
  exists log. split; [exact Hi|]. intros y m k X ls. rewrite Q.
  assert (I : In (y, m) l).
  { apply M. apply existsb_exists in X as (mv & I & _). apply filter_In in I as [I X]. apply andb_true_iff in X as [X Y].
    apply Z.eqb_eq in X, Y. eauto. }
  assert (G : exists b, In b bs /\ month_block y m ls b).
  { clear - Fb I. induction Fb as [|[y' m'] b l bs B Fb IH]; [destruct I|]. destruct I as [I|I].
    - injection I as -> ->. exists b. split; [now left|exact B].
    - destruct (IH I) as (b' & J & K). exists b'. split; [now right|exact K]. }
  destruct G as (b & J & B). apply in_split in J as (bs1 & bs2 & ->). destruct B as [cs [_ Cs]]. apply Cs in X as Ik. apply in_split in Ik as (c1 & c2 & ->).
  destruct (budget_cells_spelt k (display_quantity (wrap64 (- spent [k] ls))) (display_quantity (wrap64 (assigned [k] ls)))
    (shown_commodity [k] ls ++ display_quantity (wrap64 (assigned [k] ls - spent [k] ls)))) as (row & S & Bc).
  exists (objected [] log ++ concat bs1 ++ firstn 10 (month_heading y m ls)), (map (budget_line ls) c1), (budget_line ls k), row,
    (map (budget_line ls) c2 ++ [[10]] ++ concat bs2).
  split; [|split; [exact S|split; [exact Bc|]]].
  - rewrite concat_app. cbn [concat]. rewrite map_app. cbn [map month_heading firstn]. repeat (rewrite <- !app_assoc; cbn [app]). reflexivity.
  - apply Forall_forall. intros other Io. apply in_map_iff in Io as (k' & <- & _). exists k'. unfold budget_line. apply budget_cells_spelt.
Qed.

(** Where everything fits, the bars are where those of the heading are. *)
Theorem C107_bars : forall name a b c row, budget_cells name a b c row ->
  (length name <= 30)%nat -> (length a <= 20)%nat -> (length b <= 20)%nat -> (length c <= 20)%nat ->
  length row = 102%nat /\ forall i, In i [31; 54; 77; 100]%nat ->
    nth_error row i = Some 124 /\
    nth_error (lit "Category                       | Budgeted             | Activity             | Available            |") i = Some 124.
Proof.
  intros name a b c row [i j k l Hi Hj Hk Hl] Ln La Lb Lc. split.
  - rewrite !app_length, !repeat_length. cbn [length]. lia.
  - assert (N : forall (pre post : list Z) n, length pre = n -> nth_error (pre ++ 124 :: post) n = Some 124).
    { intros pre post n <-. rewrite nth_error_app2, Nat.sub_diag by lia. reflexivity. }
    intros n [<-|[<-|[<-|[<-|[]]]]]; (split; [|reflexivity]).
    + replace (name ++ blanks i ++ [32; 124; 32] ++ blanks j ++ a ++ [32; 124; 32] ++ blanks k ++ b ++ [32; 124; 32] ++ blanks l ++ c ++ [32; 124; 10])
        with ((name ++ blanks i ++ [32]) ++ 124 :: [32] ++ blanks j ++ a ++ [32; 124; 32] ++ blanks k ++ b ++ [32; 124; 32] ++ blanks l ++ c ++ [32; 124; 10])
        by (rewrite <- !app_assoc; reflexivity).
      apply N. rewrite !app_length, !repeat_length. cbn [length]. lia.
    + replace (name ++ blanks i ++ [32; 124; 32] ++ blanks j ++ a ++ [32; 124; 32] ++ blanks k ++ b ++ [32; 124; 32] ++ blanks l ++ c ++ [32; 124; 10])
        with ((name ++ blanks i ++ [32; 124; 32] ++ blanks j ++ a ++ [32]) ++ 124 :: [32] ++ blanks k ++ b ++ [32; 124; 32] ++ blanks l ++ c ++ [32; 124; 10])
        by (rewrite <- !app_assoc; reflexivity).
      apply N. rewrite !app_length, !repeat_length. cbn [length]. lia.
    + replace (name ++ blanks i ++ [32; 124; 32] ++ blanks j ++ a ++ [32; 124; 32] ++ blanks k ++ b ++ [32; 124; 32] ++ blanks l ++ c ++ [32; 124; 10])
        with ((name ++ blanks i ++ [32; 124; 32] ++ blanks j ++ a ++ [32; 124; 32] ++ blanks k ++ b ++ [32]) ++ 124 :: [32] ++ blanks l ++ c ++ [32; 124; 10])
        by (rewrite <- !app_assoc; reflexivity).
      apply N. rewrite !app_length, !repeat_length. cbn [length]. lia.
    + replace (name ++ blanks i ++ [32; 124; 32] ++ blanks j ++ a ++ [32; 124; 32] ++ blanks k ++ b ++ [32; 124; 32] ++ blanks l ++ c ++ [32; 124; 10])
        with ((name ++ blanks i ++ [32; 124; 32] ++ blanks j ++ a ++ [32; 124; 32] ++ blanks k ++ b ++ [32; 124; 32] ++ blanks l ++ c ++ [32]) ++ 124 :: [10])
        by (rewrite <- !app_assoc; reflexivity).
      apply N. rewrite !app_length, !repeat_length. cbn [length]. lia.
Qed.

(** ** The balance report *)
Theorem C107_balance : forall E O fs, sane_clock E -> orders E -> filters_for E (o_args O) fs ->
  o_flatten O = false -> o_collapse O = false -> r_status (balance_cmd E O) = SOk ->
  exists sel rows lines last_line total_row, picks E O fs (txns 0 (fst (stream E O))) sel /\
    (forall q d, In (q, d) rows <-> q <> [] /\ shown (o_show_zero O) (taken sel) q /\ holds (taken sel) q d) /\
    Forall2 (fun r line => exists row, spells line row /\
      balance_cells (decode (first_commodity (filter (below (fst r)) (taken sel)) ++ display_quantity (wrap64 (total (filter (below (fst r)) (taken sel))))))
        (length (fst r) - 1) (decode (last (fst r) (lit "_root_"))) row) rows lines /\
    spells last_line total_row /\
    (exists i, (i + length (decode (display_quantity (wrap64 (total (taken sel))))) = Nat.max 20 (length (decode (display_quantity (wrap64 (total (taken sel)))))))%nat /\
       total_row = blanks i ++ decode (display_quantity (wrap64 (total (taken sel))))) /\
    r_out (balance_cmd E O) = complaints [] (taken sel) ++
      [unlines lines ++ [10]; lit "--------------------" ++ [10]; last_line ++ [10]].
Proof.
  intros E O fs C Or F Ff Fc Ok. destruct (C61_rows E O fs C Or F Ff Fc Ok) as (sel & rows & P & Io & I & Q).
  exists sel, rows. do 3 eexists. split; [exact P|]. split; [exact I|]. split; [|split; [|split; [|exact Q]]].
  - clear. induction rows as [|r rows IH]; [constructor|]. constructor; [|exact IH]. unfold column. apply balance_cells_spelt.
  - unfold column, flush_right. apply ascii_before; [apply blanks_ascii|apply spells_decode].
  - exists (20 - length (decode (display_quantity (wrap64 (total (taken sel))))))%nat. split; [lia|reflexivity].
Qed.

(** The flat report: no indentation, and the whole name. *)
Theorem C107_flat : forall E O fs, sane_clock E -> orders E -> filters_for E (o_args O) fs -> o_flatten O = true -> r_status (balance_cmd E O) = SOk ->
  exists sel rows lines last_line total_row, picks E O fs (txns 0 (fst (stream E O))) sel /\
    (forall q d, In (q, d) rows <-> (q = [] \/ shown (o_show_zero O) (taken sel) q) /\ holds (taken sel) q d /\ forall k, ~ shown (o_show_zero O) (taken sel) (q ++ [k])) /\
    Forall2 (fun r line => exists row, spells line row /\
      balance_cells (decode (first_commodity (filter (below (fst r)) (taken sel)) ++ display_quantity (wrap64 (total (filter (below (fst r)) (taken sel))))))
        0 (decode (join [58] (visible (fst r)))) row) rows lines /\
    spells last_line total_row /\
    (exists i, (i + length (decode (display_quantity (wrap64 (total (taken sel))))) = Nat.max 20 (length (decode (display_quantity (wrap64 (total (taken sel)))))))%nat /\
       total_row = blanks i ++ decode (display_quantity (wrap64 (total (taken sel))))) /\
    r_out (balance_cmd E O) = complaints [] (taken sel) ++
      [unlines lines ++ [10]; lit "--------------------" ++ [10]; last_line ++ [10]].
Proof.
  intros E O fs C Or F Ff Ok. destruct (C61_flat E O fs C Or F Ff Ok) as (sel & rows & P & Io & I & Q).
  exists sel, rows. do 3 eexists. split; [exact P|]. split; [exact I|]. split; [|split; [|split; [|exact Q]]].
  - clear. induction rows as [|r rows IH]; [constructor|]. constructor; [|exact IH]. unfold column. apply (balance_cells_spelt _ 0).
  - unfold column, flush_right. apply ascii_before; [apply blanks_ascii|apply spells_decode].
  - exists (20 - length (decode (display_quantity (wrap64 (total (taken sel))))))%nat. split; [lia|reflexivity].
Qed.

(** The collapsed report: the accounts on one line are indented as the first of them. *)
Theorem C107_collapsed : forall E O fs, sane_clock E -> orders E -> filters_for E (o_args O) fs ->
  o_flatten O = false -> o_collapse O = true -> r_status (balance_cmd E O) = SOk ->
  exists sel rows lines last_line total_row, picks E O fs (txns 0 (fst (stream E O))) sel /\
    (let sh := shown (o_show_zero O) (taken sel) in
     forall q n names, In (q, (n, names)) rows <-> q <> [] /\ sh q /\ ~ alone sh q /\ folded (alone sh) q n names) /\
    Forall2 (fun r line => exists row, spells line row /\
      balance_cells (decode (first_commodity (filter (below (fst r)) (taken sel)) ++ display_quantity (wrap64 (total (filter (below (fst r)) (taken sel))))))
        (fst (snd r)) (decode (join [58] (snd (snd r)))) row) rows lines /\
    spells last_line total_row /\
    (exists i, (i + length (decode (display_quantity (wrap64 (total (taken sel))))) = Nat.max 20 (length (decode (display_quantity (wrap64 (total (taken sel)))))))%nat /\
       total_row = blanks i ++ decode (display_quantity (wrap64 (total (taken sel))))) /\
    r_out (balance_cmd E O) = complaints [] (taken sel) ++
      [unlines lines ++ [10]; lit "--------------------" ++ [10]; last_line ++ [10]].
Proof.
  intros E O fs C Or F Ff Fc Ok. destruct (C61_collapsed E O fs C Or F Ff Fc Ok) as (sel & rows & P & X). cbn zeta in X. destruct X as (Io & I & Q).
  exists sel, rows. do 3 eexists. split; [exact P|]. split; [exact I|]. split; [|split; [|split; [|exact Q]]].
  - clear. induction rows as [|r rows IH]; [constructor|]. constructor; [|exact IH]. unfold column. apply balance_cells_spelt.
  - unfold column, flush_right. apply ascii_before; [apply blanks_ascii|apply spells_decode].
  - exists (20 - length (decode (display_quantity (wrap64 (total (taken sel))))))%nat. split; [lia|reflexivity].
Qed.

(** ** What fits *)
Lemma value_from : forall s a, fold_left (fun a c => 10 * a + (c - 48)) s a = 10 ^ Z.of_nat (length s) * a + numeral_value s.
Proof.
  unfold numeral_value. induction s as [|c s IH]; intro a; [change (a = 1 * a + 0); lia|]. cbn [fold_left length]. rewrite IH, (IH (10 * 0 + (c - 48))).
  rewrite Nat2Z.inj_succ, Z.pow_succ_r by lia. ring.
Qed.
Lemma value_nonneg : forall s, Forall digit s -> 0 <= numeral_value s.
Proof.
  induction 1 as [|c s D F IH]; [apply Z.le_refl|]. unfold numeral_value. cbn [fold_left]. rewrite value_from. unfold digit in D.
  pose proof (Z.pow_nonneg 10 (Z.of_nat (length s)) ltac:(lia)). nia.
Qed.

(** Amounts that are shown exactly (C05) fit. *)
Theorem C107_fits : forall q, Z.abs q <= 100 * 2 ^ 46 -> (length (decode (display_quantity q)) <= 18)%nat.
Proof.
  intros q H. pose proof (display_money q H) as M. destruct M as [w c (NE & Dw & Cw & Vw) (Lc & Dc & Vc)].
  assert (A : Forall (fun r => 0 <= r < 128) ((if q <? 0 then [45] else []) ++ w ++ [46] ++ c)).
  { repeat (apply Forall_app; split).
    - destruct (q <? 0); repeat constructor; lia.
    - eapply Forall_impl; [|exact Dw]. unfold digit. intros; lia.
    - repeat constructor; lia.
    - eapply Forall_impl; [|exact Dc]. unfold digit. intros; lia. }
  assert (decode ((if q <? 0 then [45] else []) ++ w ++ [46] ++ c) = (if q <? 0 then [45] else []) ++ w ++ [46] ++ c) as -> by (now apply C55_decoded, spells_ascii).
  assert (B : Z.abs q / 100 <= 2 ^ 46) by (apply Z.div_le_upper_bound; lia).
  assert (length w <= 14)%nat as Lw.
  { destruct w as [|x w]; [cbn; lia|]. cbn [hd] in Vw. destruct (Z.eq_dec x 48) as [X|X]; [rewrite (Vw X); cbn; lia|].
    inversion_clear Dw as [|? ? Dx Dw']. unfold numeral_value in Cw. cbn [fold_left] in Cw. rewrite value_from in Cw. pose proof (value_nonneg w Dw') as N. unfold digit in Dx.
    destruct (Nat.le_gt_cases (length w) 13) as [L|L]; [cbn [length]; lia|]. exfalso.
    assert (10 ^ 14 <= 10 ^ Z.of_nat (length w)) by (apply Z.pow_le_mono_r; lia).
    assert (2 ^ 46 < 10 ^ 14) by reflexivity. nia. }
  rewrite !app_length, Lc. cbn [length]. destruct (q <? 0); cbn [length]; lia.
Qed.

(** ** Examples *)
Example C107_example :
  sane_clock E_budget /\ orders E_budget /\ filters_for E_budget (o_args O_budget) [] /\ r_status (budget_cmd E_budget O_budget) = SOk /\
  existsb (concerns [lit "Clothing"]) (month 2020 10 log_budget) = true /\
  budget_cells (lit "Clothing") (lit "-40.00") (lit "50.00") (163 :: lit "10.00")
    (decode (lit "Clothing                       |               -40.00 |                50.00 |               £10.00 |" ++ [10])).
Proof.
  split; [apply env0_sane|]. split; [apply env0_orders|]. split; [apply makeFilters_spec; reflexivity|]. split; [vm_compute; reflexivity|].
  split; [vm_compute; reflexivity|].
  exact (BudgetCells (lit "Clothing") (lit "-40.00") (lit "50.00") (163 :: lit "10.00") 22 14 15 14 eq_refl eq_refl eq_refl eq_refl).
Qed.

(** A commodity that takes two bytes for one character is one character wide. *)
Example C107_balance_example :
  let E := env0 files3 in let O := opts3 (lit "2021-03-02") [] false [] in
  sane_clock E /\ orders E /\ filters_for E (o_args O) [] /\ o_flatten O = false /\ o_collapse O = false /\ r_status (balance_cmd E O) = SOk /\
  balance_cells (lit "$-2.00") 0 (lit "y") (decode (lit "              $-2.00  y")) /\
  balance_cells (163 :: lit "1.00") 1 (lit "x") (decode (lit "               £1.00    x")).
Proof.
  cbv zeta. split; [apply env0_clock|]. split; [apply env0_orders|]. split; [apply makeFilters_spec; reflexivity|]. split; [reflexivity|]. split; [reflexivity|].
  split; [vm_compute; reflexivity|]. split.
  - exact (BalanceCells (lit "$-2.00") 0 (lit "y") 14 eq_refl).
  - exact (BalanceCells (163 :: lit "1.00") 1 (lit "x") 15 eq_refl).
Qed.

(** The same journal flat, and collapsed with all its accounts. *)
Example C107_forms_example :
  let E := env0 files3 in let O f c := Opts (o_file (opts3 (lit "2021-03-02") [] false [])) (lit "2021-03-02") [] false [] f c false in
  r_status (balance_cmd E (O true false)) = SOk /\ r_status (balance_cmd E (O false true)) = SOk /\
  o_flatten (O true false) = true /\ o_flatten (O false true) = false /\ o_collapse (O false true) = true /\
  balance_cells (lit "$-2.00") 0 (lit "y") (decode (lit "              $-2.00  y")).
Proof.
  cbv zeta. split; [vm_compute; reflexivity|]. split; [vm_compute; reflexivity|]. split; [reflexivity|]. split; [reflexivity|]. split; [reflexivity|].
  exact (BalanceCells (lit "$-2.00") 0 (lit "y") 14 eq_refl).
Qed.
