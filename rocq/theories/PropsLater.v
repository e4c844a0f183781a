(** * C138: a budget moved by whole months *)
From Verif Require Import Base BaseFacts Utf8 Unicode GoTime Strconv Display Journal JournalFacts Lexer Parser ParserFacts Account Reporting Budget Cmd Spec TextSpec
  TreeSpec TreeFacts ReportSpec CmdSpec CmdFacts FlatSpec Sample PropsCmd PropsBalance BudgetSpec BudgetFacts PropsBudget PropsAgain PropsConcat PropsJoin PropsJoinMore PropsOrder PropsInside PropsRenamed PropsDays PropsMonths PropsCross PropsLocal.

(** Month [b] is [k] months after month [a]; months are a year and 1 to 12. *)
Definition months_later (k : Z) (a b : Z * Z) : Prop :=
  1 <= snd a <= 12 /\ 1 <= snd b <= 12 /\ 12 * fst b + snd b = 12 * fst a + snd a + k.
Definition month_of_move (m : move) : Z * Z := (d_year (mv_date m), d_month (mv_date m)).
(** The same, [k] months later. *)
Definition deferred (k : Z) (m m' : move) : Prop :=
  mv_type m' = mv_type m /\ mv_posting m' = mv_posting m /\ months_later k (month_of_move m) (month_of_move m').

(** A section of the report: its month, and the lines below the line that names it. *)
Definition section_lines (s : (Z * Z) * list str) : list str :=
  (four_digits (fst (fst s)) ++ lit "-" ++ two_digits (snd (fst s)) ++ lit "-01 00:00:00 +0000 UTC" ++ [10]) :: snd s.

Section Deferred.
Definition like (m m' : move) : Prop := mv_type m' = mv_type m /\ mv_posting m' = mv_posting m.
Ltac like := let H := fresh in intros [? ? ?] [? ? ?] H; destruct H; cbn in *; subst; reflexivity.

Lemma like_filter : forall (g : move -> bool) l l', (forall m m', like m m' -> g m' = g m) -> Forall2 like l l' -> Forall2 like (filter g l) (filter g l').
Proof.
  intros g l l' G H. induction H as [|m m' l l' Hm H IH]; [constructor|]. cbn [filter]. rewrite (G _ _ Hm). destruct (g m); [now constructor|exact IH].
Qed.
Lemma like_postings : forall l l', Forall2 like l l' -> map mv_posting l' = map mv_posting l.
Proof. intros l l' H. induction H as [|m m' l l' [_ Hm] H IH]; [reflexivity|]. cbn [map]. now rewrite Hm, IH. Qed.
Lemma like_exists : forall (g : move -> bool) l l', (forall m m', like m m' -> g m' = g m) -> Forall2 like l l' -> existsb g l' = existsb g l.
Proof. intros g l l' G H. induction H as [|m m' l l' Hm H IH]; [reflexivity|]. cbn [existsb]. now rewrite (G _ _ Hm), IH. Qed.
Lemma like_sum : forall (g : move -> bool) l l', (forall m m', like m m' -> g m' = g m) -> Forall2 like l l' -> sum_of g l' = sum_of g l.
Proof. intros g l l' G H. unfold sum_of. now rewrite (like_postings _ _ (like_filter g l l' G H)). Qed.
Lemma like_first : forall (g : move -> bool) l l', (forall m m', like m m' -> g m' = g m) -> Forall2 like l l' ->
  first_commodity (map mv_posting (filter g l')) = first_commodity (map mv_posting (filter g l)).
Proof. intros g l l' G H. now rewrite (like_postings _ _ (like_filter g l l' G H)). Qed.
Lemma like_shown : forall q l l', Forall2 like l l' -> shown_commodity q l' = shown_commodity q l.
Proof.
  intros q l l' H. unfold shown_commodity. f_equal. assert (G : forall m m', like m m' -> names q m' = names q m) by like.
  pose proof (f_equal (map commodity_of) (like_postings _ _ (like_filter _ l l' G H))) as X. rewrite !map_map in X. exact X.
Qed.
Lemma like_roots : forall l l', Forall2 like l l' ->
  income_commodity l' = income_commodity l /\ envelope_commodity l' = envelope_commodity l /\ spending_commodity l' = spending_commodity l /\ earned l' = earned l.
Proof.
  intros l l' H. unfold income_commodity, envelope_commodity, spending_commodity, earned. split; [|split; [|split]]; [apply like_first|apply like_first|apply like_first|apply like_sum]; try exact H; like.
Qed.
Lemma like_objections : forall b b' m m', Forall2 like b b' -> like m m' -> objections b' m' = objections b m.
Proof.
  intros b b' m m' H Hm. assert (H' : Forall2 like (b ++ [m]) (b' ++ [m'])) by (apply Forall2_app; auto). unfold objections.
  destruct (like_roots _ _ H') as (-> & -> & -> & _). destruct (like_roots _ _ H) as (_ & -> & _ & _). rewrite (proj2 Hm).
  assert (A : is_earn m' = is_earn m) by (revert m m' Hm H'; clear; intros m m' Hm _; revert m m' Hm; like). assert (B : is_spend m' = is_spend m) by (clear H'; revert m m' Hm A; clear; intros m m' Hm _; revert m m' Hm; like).
  assert (F : to_fund m' = to_fund m) by (clear H' A B; revert m m' Hm; like). assert (G : category m' = category m) by (clear H' A B F; revert m m' Hm; like).
  rewrite A, B, F, G. destruct (is_earn m); [reflexivity|]. destruct (to_fund m); [reflexivity|].
  rewrite !flat_map_concat_map. f_equal. apply map_ext. intros [|k q]; [reflexivity|]. now rewrite (like_shown (k :: q) _ _ H').
Qed.

Variable k : Z.
Lemma deferred_like : forall l l', Forall2 (deferred k) l l' -> Forall2 like l l'.
Proof. intros l l' H. induction H as [|m m' l l' (A & B & _) H IH]; constructor; auto. split; assumption. Qed.
Lemma deferred_month : forall a b l l', months_later k a b -> Forall2 (deferred k) l l' -> Forall2 (deferred k) (month (fst a) (snd a) l) (month (fst b) (snd b) l').
Proof.
  intros a b l l' L H. unfold month. induction H as [|m m' l l' Hm H IH]; [constructor|]. cbn [filter].
  assert (Q : in_month (fst b) (snd b) m' = in_month (fst a) (snd a) m).
  { destruct Hm as (_ & _ & D). unfold months_later, month_of_move in *. cbn [fst snd] in *. unfold in_month. apply eq_true_iff_eq. rewrite !andb_true_iff, !Z.eqb_eq. lia. }
  rewrite Q. destruct (in_month (fst a) (snd a) m); [now constructor|exact IH].
Qed.
Lemma deferred_objected : forall l l', Forall2 (deferred k) l l' -> forall b b', Forall2 (deferred k) b b' -> objected b' l' = objected b l.
Proof.
  intros l l' H. induction H as [|m m' l l' Hm H IH]; intros b b' B; [reflexivity|]. cbn [objected].
  pose proof (deferred_month _ _ _ _ (proj2 (proj2 Hm)) B) as M. cbn [month_of_move fst snd] in M.
  assert (Lm : like m m') by (destruct Hm as (X & Y & _); split; assumption). rewrite (like_objections _ _ _ _ (deferred_like _ _ M) Lm). f_equal. apply IH. apply Forall2_app; auto.
Qed.
Lemma deferred_proper : forall l l', Forall2 (deferred k) l l' -> Forall proper l -> Forall proper l'.
Proof.
  intros l l' H. induction H as [|m m' l l' Hm H IH]; intro P; [constructor|]. inversion P as [|? ? [P1 P2] P3]; subst. constructor; [|auto].
  destruct Hm as (A & B & _). split; [now rewrite B|]. assert (G : category m' = category m) by (revert A B; clear; destruct m, m'; cbn; intros -> ->; reflexivity). now rewrite G.
Qed.
Lemma deferred_section : forall a b ms ms' t t', months_later k a b -> Forall2 (deferred k) ms ms' -> month_block (fst a) (snd a) ms t -> month_block (fst b) (snd b) ms' t' ->
  exists rest, t = section_lines (a, rest) /\ t' = section_lines (b, rest).
Proof.
  intros a b ms ms' t t' L H [cs [S I]] [cs' [S' I']]. pose proof (deferred_like _ _ H) as H0.
  assert (cs' = cs) as ->.
  { apply ascending_same; [exact S'|exact S|]. intro x. rewrite I, I'. rewrite (like_exists (concerns [x]) ms ms'); [reflexivity|like|exact H0]. }
  assert (B : forall x, budget_line ms' x = budget_line ms x).
  { intro x. unfold budget_line, spent, assigned. rewrite (like_shown [x] _ _ H0), (like_sum (fun m => is_spend m && concerns [x] m) ms ms'), (like_sum (fun m => is_assign m && concerns [x] m) ms ms'); [reflexivity|like|exact H0|like|exact H0]. }
  rewrite (map_ext _ _ B). unfold month_heading. destruct (like_roots _ _ H0) as (-> & _ & _ & ->). eexists. split; reflexivity.
Qed.

(** The months, in order. *)
Lemma rising_same : forall l l' : list Z, StronglySorted Z.lt l -> StronglySorted Z.lt l' -> (forall x, In x l <-> In x l') -> l = l'.
Proof.
  intros l l' H. revert l'. induction H as [|a l S IH F]; intros l' H' E.
  - destruct l' as [|b l']; [reflexivity|]. destruct (proj2 (E b) (or_introl eq_refl)).
  - destruct l' as [|b l']; [destruct (proj1 (E a) (or_introl eq_refl))|]. inversion H' as [|? ? S' F']; subst.
    rewrite Forall_forall in F, F'.
    assert (a = b) as ->.
    { destruct (proj1 (E a) (or_introl eq_refl)) as [->|Ia]; [reflexivity|]. destruct (proj2 (E b) (or_introl eq_refl)) as [->|Ib]; [reflexivity|].
      specialize (F _ Ib). specialize (F' _ Ia). lia. }
    f_equal. apply IH; [exact S'|]. intro x. split; intro I.
    + destruct (proj1 (E x) (or_intror I)) as [->|K]; [specialize (F _ I); lia|exact K].
    + destruct (proj2 (E x) (or_intror I)) as [->|K]; [specialize (F' _ I); lia|exact K].
Qed.
Lemma deferred_in : forall l l', Forall2 (deferred k) l l' -> (forall m, In m l -> exists m', In m' l' /\ deferred k m m') /\ (forall m', In m' l' -> exists m, In m l /\ deferred k m m').
Proof.
  intros l l' H. induction H as [|x x' l l' Hx H [A B]]; [split; intros ? []|]. split.
  - intros m [<-|I]; [exists x'; split; [now left|exact Hx]|]. destruct (A m I) as (m' & J & D). exists m'. split; [now right|exact D].
  - intros m [<-|I]; [exists x; split; [now left|exact Hx]|]. destruct (B m I) as (m' & J & D). exists m'. split; [now right|exact D].
Qed.
Lemma months_deferred : forall log log' l l', Forall2 (deferred k) log log' -> months_of log l -> months_of log' l' -> Forall2 (months_later k) l l'.
Proof.
  intros log log' l l' H [S I] [S' I']. destruct (deferred_in _ _ H) as [A B].
  set (ix := fun a : Z * Z => 12 * fst a + snd a).
  assert (R : forall a, In a l -> exists b, In b l' /\ months_later k a b).
  { intros [y m] J. apply I in J as (mv & J & <- & <-). destruct (A mv J) as (mv' & J' & D). exists (month_of_move mv'). split; [apply I'; exists mv'; auto|apply D]. }
  assert (R' : forall b, In b l' -> exists a, In a l /\ months_later k a b).
  { intros [y m] J. apply I' in J as (mv & J & <- & <-). destruct (B mv J) as (mv' & J' & D). exists (month_of_move mv'). split; [apply I; exists mv'; auto|apply D]. }
  clear A B I I' H.
  assert (So : forall x : list (Z * Z), (forall a, In a x -> 1 <= snd a <= 12) -> StronglySorted (fun a b => fst a < fst b \/ fst a = fst b /\ snd a < snd b) x -> StronglySorted Z.lt (map ix x)).
  { intros x G T. induction T as [|a x T IH F]; cbn [map]; constructor; [apply IH; intros; apply G; now right|].
    apply Forall_forall. intros v J. apply in_map_iff in J as (c & <- & J). rewrite Forall_forall in F. specialize (F c J). unfold ix.
    pose proof (G a (or_introl eq_refl)). pose proof (G c (or_intror J)). lia. }
  assert (G : forall a, In a l -> 1 <= snd a <= 12) by (intros a J; destruct (R a J) as (? & _ & D); apply D).
  assert (G' : forall a, In a l' -> 1 <= snd a <= 12) by (intros a J; destruct (R' a J) as (? & _ & D); apply D).
  assert (Q : map ix l' = map (fun a => ix a + k) l).
  { apply rising_same; [now apply So| |].
    - rewrite <- (map_map ix (fun z => z + k)). generalize (So l G S). induction 1 as [|y z T IH F]; cbn [map]; constructor; auto.
      apply Forall_forall. intros v J. apply in_map_iff in J as (w & <- & J). rewrite Forall_forall in F. specialize (F w J). lia.
    - intro z. rewrite !in_map_iff. split; intros (d & <- & J).
      + destruct (R' d J) as (a & Ja & D). exists a. split; [unfold ix; destruct D as (_ & _ & D); lia|exact Ja].
      + destruct (R d J) as (a & Ja & D). exists a. split; [unfold ix; destruct D as (_ & _ & D); lia|exact Ja]. }
  clear R R' S S'. revert l' Q G G'. induction l as [|a l IH]; intros [|b l'] Q G G'; try discriminate; constructor; cbn [map] in Q; injection Q as Q1 Q2.
  - unfold ix in Q1. split; [apply G; now left|]. split; [apply G'; now left|exact Q1].
  - apply IH; [exact Q2|intros; apply G; now right|intros; apply G'; now right].
Qed.
End Deferred.

(** Two runs of budget whose budget entries, income and spending are the same,
    [k] months later in the second: the second says the same, and has the same
    sections, named for months [k] later. *)
Theorem C138_budget : forall k E O log E' O' log', sane_clock E -> orders E -> o_args O = [] -> sane_clock E' -> orders E' -> o_args O' = [] ->
  r_status (budget_cmd E O) = SOk -> CmdSpec.readable E' O' ->
  history E O [] 0 (fst (stream E O)) log -> history E' O' [] 0 (fst (stream E' O')) log' -> Forall2 (deferred k) log log' ->
  exists said secs secs', Forall2 (fun s s' => months_later k (fst s) (fst s') /\ snd s' = snd s) secs secs' /\
    budget_cmd E O = Outcome (said ++ flat_map section_lines secs) SOk /\ budget_cmd E' O' = Outcome (said ++ flat_map section_lines secs') SOk.
Proof.
  intros k E O log E' O' log' C Or A C' Or' A' Ok Re' Hi Hi' D.
  assert (F : filters_for E (o_args O) []) by (rewrite A; split; constructor). assert (F' : filters_for E' (o_args O') []) by (rewrite A'; split; constructor).
  destruct (C48_report E O [] C Or F) as [K L]. destruct (C48_report E' O' [] C' Or' F') as [K' L'].
  destruct (proj1 K Ok) as [_ (lg & Hg & Pg)]. rewrite (history_whole _ _ _ _ _ Hi _ Hg) in Pg. clear lg Hg.
  destruct (L Ok) as (lg & l & bs & Hg & Mo & Bl & Q). rewrite (history_whole _ _ _ _ _ Hi _ Hg) in *. clear lg Hg.
  assert (St : r_status (budget_cmd E' O') = SOk).
  { apply K'. split; [exact Re'|]. exists log'. split; [exact Hi'|exact (deferred_proper k _ _ D Pg)]. }
  destruct (L' St) as (lg & l' & bs' & Hg & Mo' & Bl' & Q'). rewrite (history_whole _ _ _ _ _ Hi' _ Hg) in *. clear lg Hg.
  assert (Secs : exists secs secs', Forall2 (fun s s' => months_later k (fst s) (fst s') /\ snd s' = snd s) secs secs' /\ concat bs = flat_map section_lines secs /\ concat bs' = flat_map section_lines secs').
  { pose proof (months_deferred k _ _ _ _ D Mo Mo') as Ml. clear - Bl Bl' D Ml. revert bs bs' Bl Bl'. induction Ml as [|a b l l' Hab Ml IH]; intros bs bs' Bl Bl'; inversion Bl; inversion Bl'; subst.
    - exists [], []. repeat split; constructor.
    - match goal with X : Forall2 _ l ?x, Y : Forall2 _ l' ?y |- _ => destruct (IH x y X Y) as (secs & secs' & Fs & Q1 & Q2) end.
      match goal with X : month_block _ _ _ ?t, Y : month_block (fst b) _ _ ?t' |- _ => destruct (deferred_section k a b _ _ t t' Hab (deferred_month k _ _ _ _ Hab D) X Y) as (rest & -> & ->) end.
      exists ((a, rest) :: secs), ((b, rest) :: secs'). split; [constructor; [split; [exact Hab|reflexivity]|exact Fs]|]. cbn [concat flat_map]. now rewrite Q1, Q2. }
  destruct Secs as (secs & secs' & Fs & Q1 & Q2). exists (objected [] log), secs, secs'. split; [exact Fs|]. rewrite <- Q1, <- Q2.
  pose proof (deferred_objected k _ _ D [] [] (Forall2_nil _)) as Ob. rewrite Ob in Q'. destruct (budget_cmd E O), (budget_cmd E' O'). cbn in *. subst. auto.
Qed.

Definition two_months (a b : string) : str :=
  lit "~ " ++ lit a ++ [10] ++ lit "  Food  $5" ++ [10] ++ lit "  Rent  $9" ++ [10] ++ [10] ++
  lit a ++ lit "-05 D" ++ [10] ++ lit "  Expenses:Food:Out  $1" ++ [10] ++ lit "  Cash" ++ [10] ++ [10] ++
  lit b ++ lit "-28 J" ++ [10] ++ lit "  Income:Pay  $-20" ++ [10] ++ lit "  Cash" ++ [10] ++ [10] ++
  lit b ++ lit "-01 D" ++ [10] ++ lit "  Expenses:Rent  $3" ++ [10] ++ lit "  Cash" ++ [10].
Example C138_example : let E := env1 [(lit "j", two_months "2020-11" "2020-12")] in let E' := env1 [(lit "j", two_months "2021-02" "2021-03")] in let O := opts0 "j" in
  let rows x := filter (fun l => str_eqb (firstn 1 (skipn 31 l)) (lit "|") || str_eqb (firstn 2 l) (lit "20")) (r_out (budget_cmd x O)) in
  exists log log', sane_clock E /\ orders E /\ o_args O = [] /\ sane_clock E' /\ orders E' /\ r_status (budget_cmd E O) = SOk /\ CmdSpec.readable E' O /\
  history E O [] 0 (fst (stream E O)) log /\ history E' O [] 0 (fst (stream E' O)) log' /\ length log = 6%nat /\ Forall2 (deferred 3) log log' /\
  map (fun n => nth n (rows E) []) [0%nat; 7%nat; 8%nat; 9%nat] = lines [lit "2020-11-01 00:00:00 +0000 UTC";
    lit "Food                           |                -1.00 |                 5.00 |                $4.00 |";
    lit "Rent                           |                 0.00 |                 9.00 |                $9.00 |"; lit "2020-12-01 00:00:00 +0000 UTC"] /\
  map (fun n => nth n (rows E') []) [0%nat; 7%nat; 8%nat; 9%nat] = lines [lit "2021-02-01 00:00:00 +0000 UTC";
    lit "Food                           |                -1.00 |                 5.00 |                $4.00 |";
    lit "Rent                           |                 0.00 |                 9.00 |                $9.00 |"; lit "2021-03-01 00:00:00 +0000 UTC"].
Proof.
  cbv zeta. do 2 eexists. split; [apply env1_clock|]. split; [apply env1_orders|]. split; [reflexivity|]. split; [apply env1_clock|]. split; [apply env1_orders|].
  split; [vm_compute; reflexivity|]. split; [split; [vm_compute; reflexivity|apply (PropsMain.flags_free _ [])]|].
  split; [apply computed_history; [apply env1_clock|apply no_flags; reflexivity]|].
  split; [apply computed_history; [apply env1_clock|apply no_flags; reflexivity]|].
  split; [vm_compute; reflexivity|]. split.
  { match goal with |- Forall2 _ ?a ?b => let x := eval vm_compute in a in let y := eval vm_compute in b in change (Forall2 (deferred 3) x y) end.
    repeat (apply Forall2_cons; [split; [reflexivity|]; split; [reflexivity|]; unfold months_later; cbn; lia|]). constructor. }
  split; vm_compute; reflexivity.
Qed.
