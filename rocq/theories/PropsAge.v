(** * Properties of the age of money and the time period: C45, C46, C63 *)
From Coq Require Import Floats.SpecFloat.
From Verif Require Import Base BaseFacts GoTime Strconv Display Journal Lexer Parser ParserFacts Account Reporting Budget Cmd
  TextSpec DateFacts DisplayFacts AmountFacts CalendarFacts CmdSpec StreamFacts CmdFacts Sample PropsCmd PropsStats DayFacts FloatFacts AgeFacts BankFacts.

(** ** C45: first in, first out *)

(** [ts] is drawn from the days' amounts [qs]: never more than there is, and from
    a day only if nothing is left on the days before. *)
Inductive drawn : list Z -> list Z -> Prop :=
| DrawnNone : drawn [] []
| DrawnAll : forall q qs ts, drawn qs ts -> drawn (q :: qs) (q :: ts)
| DrawnPart : forall q t qs, 0 <= t < q -> drawn (q :: qs) (t :: map (fun _ => 0) qs).

Lemma map_zero : forall (l : list Z), zsum (map (fun _ => 0) l) = 0.
Proof. induction l as [|x l IH]; [reflexivity|]. cbn. exact IH. Qed.

Lemma fifo_split : forall incs from s x, Forall good_day incs -> from <= s -> 0 <= x ->
  exists ts, drawn (map (left_on s) (laid from incs)) ts /\
    map (left_on (s + x)) (laid from incs) = map (fun '(q, t) => q - t) (combine (map (left_on s) (laid from incs)) ts) /\
    zsum ts = Z.min x (zsum (map (left_on s) (laid from incs))).
Proof.
  induction incs as [|[d q] incs IH]; intros from s x G L X; cbn [laid map].
  - exists []. split; [constructor|]. split; [reflexivity|]. cbn. lia.
  - inversion G as [|? ? Gq G']; subst. unfold good_day in Gq. cbn [snd] in Gq. set (e := from + q) in *.
    set (l0 := left_on s (d, from, e)). assert (L0 : l0 = Z.min q (Z.max 0 (e - s))) by (unfold l0, left_on; f_equal; lia).
    assert (Pos : 0 <= zsum (map (left_on s) (laid e incs))).
    { clear - G'. assert (H : forall iv, In iv (laid e incs) -> 0 <= left_on s iv).
      { intros iv I. pose proof (laid_above _ _ _ G' I). destruct iv as [[? c] f]. cbn in *. lia. }
      revert H. induction (laid e incs) as [|iv l IH]; intro H; [cbn; lia|]. cbn [map zsum fold_right]. fold (zsum (map (left_on s) l)).
      specialize (IH (fun i I => H i (or_intror I))). specialize (H iv (or_introl eq_refl)). lia. }
    destruct (Z.leb_spec l0 x) as [Le|Gt].
    + (* the day is emptied *)
      assert (S' : map (left_on s) (laid e incs) = map (left_on (Z.max s e)) (laid e incs)).
      { apply map_ext_in. intros iv I. pose proof (laid_above _ _ _ G' I). destruct iv as [[? c] f]. cbn in *. lia. }
      destruct (IH e (Z.max s e) (x - l0) G') as (ts & T1 & T2 & T3); [lia|lia|]. exists (l0 :: ts).
      rewrite S' in *. split; [now constructor|]. cbn [combine map]. split.
      * f_equal; [unfold left_on; lia|]. rewrite <- T2. apply map_ext_in. intros iv I. pose proof (laid_above _ _ _ G' I). destruct iv as [[? c] f]. cbn in *. lia.
      * cbn [zsum fold_right]. fold (zsum ts). fold (zsum (map (left_on (Z.max s e)) (laid e incs))). rewrite T3. lia.
    + exists (x :: map (fun _ => 0) (map (left_on s) (laid e incs))). split; [constructor; lia|]. cbn [combine map]. split.
      * f_equal; [unfold left_on; lia|]. clear IH Pos. induction (laid e incs) as [|iv l IHl] eqn:El.
        { reflexivity. }
        rewrite <- El in *. clear IHl El iv l. assert (K : forall l, (forall iv, In iv l -> e <= snd (fst iv) <= snd iv) ->
          map (left_on (s + x)) l = map (fun '(q0, t) => q0 - t) (combine (map (left_on s) l) (map (fun _ : Z => 0) (map (left_on s) l)))).
        { induction l as [|iv l IHl]; intro H; [reflexivity|]. cbn [map combine]. rewrite IHl by (intros; apply H; now right). f_equal.
          specialize (H iv (or_introl eq_refl)). destruct iv as [[? c] f]. cbn in *. lia. }
        apply K. intros iv I. eapply laid_above; eauto.
      * cbn [zsum fold_right]. fold (zsum (map (fun _ : Z => 0) (map (left_on s) (laid e incs)))). fold (zsum (map (left_on s) (laid e incs))).
        rewrite map_zero. lia.
Qed.

Lemma left_on_0 : forall incs from, Forall good_day incs -> 0 <= from -> map (left_on 0) (laid from incs) = map snd incs.
Proof.
  induction incs as [|[d q] incs IH]; intros from G L; [reflexivity|]. inversion G as [|? ? Gq G']; subst. unfold good_day in Gq. cbn [snd] in Gq.
  cbn [laid map snd]. rewrite IH by (auto; lia). f_equal. cbn. lia.
Qed.

Theorem C45_one_day : forall e x days m m' ages, NoDup (map fst days) -> Forall (fun y => 0 <= snd y < 2 ^ 63) days -> 0 <= x < 2 ^ 63 ->
  (forall d q, In (d, q) days -> bucket d m = q) -> spend e x (map fst days) m = (m', ages) ->
  exists ts, drawn (map snd days) ts /\ zsum ts = Z.min x (zsum (map snd days)) /\
    map (fun d => bucket d m') (map fst days) = map (fun '(q, t) => q - t) (combine (map snd days) ts).
Proof.
  intros e x days m m' ages N G X B H.
  assert (B' : forall iv, In iv (laid 0 days) -> bucket (day iv) m = left_on 0 iv).
  { intros iv I. assert (In (day iv, left_on 0 iv) (combine (map fst days) (map snd days))) as J.
    { rewrite <- (laid_days days 0), <- (left_on_0 days 0) by (auto; lia). clear - I. induction (laid 0 days) as [|y l IH]; [destruct I|].
      cbn. destruct I as [->|I]; auto. }
    apply B. clear - J. induction days as [|[d q] days IH]; [destruct J|]. cbn in J. destruct J as [J|J]; [left|right]; auto. }
  destruct (spend_spec days 0 0 e x m m' ages G N ltac:(lia) X B' H) as (_ & A & _).
  destruct (fifo_split days 0 0 x G ltac:(lia) ltac:(lia)) as (ts & T1 & T2 & T3).
  rewrite (left_on_0 days 0) in T1, T2, T3 by (auto; lia).
  exists ts. split; [exact T1|]. split; [exact T3|]. rewrite <- T2. rewrite <- (laid_days days 0), map_map. apply map_ext_in. auto.
Qed.

(** Three days' income; of 25, 10 come from the first, 15 from the second. *)
Example C45_one_day_example :
  let d1 := Date 2021 1 1 in let d2 := Date 2021 1 5 in let d3 := Date 2021 2 1 in
  let days := [(d1, 10); (d2, 20); (d3, 5)] in
  snd (spend (Date 2021 3 1) 25 (map fst days) days) = [59 * day_ns; 55 * day_ns] /\
  map (fun d => bucket d (fst (spend (Date 2021 3 1) 25 (map fst days) days))) [d1; d2; d3] = [0; 5; 5] /\
  drawn (map snd days) [10; 15; 0].
Proof. cbn zeta. repeat split; try (vm_compute; reflexivity). apply DrawnAll. apply (DrawnPart 20 15 [5]). lia. Qed.

(** Which order the postings of a transaction come in makes no difference. *)
Lemma picks_same : forall E O fs us sel sel', picks E O fs us sel -> picks E O fs us sel' ->
  Forall2 (fun a b => fst a = fst b /\ Permutation (snd a) (snd b)) sel sel'.
Proof.
  intros E O fs us sel sel' H. revert sel'. induction H as [|u us sel No _ IH|u us sel ps W Ht P Wh _ IH]; intros sel' H'.
  - inversion H'. constructor.
  - inversion H'; subst; [auto|]. destruct No as [No|No]; [contradiction|congruence].
  - inversion H' as [|? ? ? No H2|? ? ? ps' W' Ht' P' Wh' H2]; subst.
    + destruct No as [No|No]; [contradiction|congruence].
    + constructor; [|auto]. cbn. split; [reflexivity|]. now rewrite P, P'.
Qed.

Lemma posted_perm : forall root ps ps', Permutation ps ps' -> Permutation (posted root ps) (posted root ps').
Proof. intros. unfold posted. now apply Permutation_flat_map. Qed.
Lemma posted_on_perm : forall root d sel sel', Forall2 (fun a b => fst a = fst b /\ Permutation (snd a) (snd b)) sel sel' ->
  Permutation (posted_on root sel d) (posted_on root sel' d).
Proof.
  intros root d sel sel' H. induction H as [|[u ps] [u' ps'] sel sel' [Q P] _ IH]; [constructor|]. cbn in Q, P. subst u'. unfold posted_on in *. cbn [flat_map].
  apply Permutation_app; [|exact IH]. destruct (date_eqb _ d); [|constructor]. now apply posted_perm.
Qed.
Lemma zsum_perm : forall a b, Permutation a b -> zsum a = zsum b.
Proof. unfold zsum. induction 1; cbn [fold_right]; lia. Qed.
Lemma days_posted_same : forall root sgn sel sel' l, Forall2 (fun a b => fst a = fst b /\ Permutation (snd a) (snd b)) sel sel' ->
  days_posted root sgn sel l -> days_posted root sgn sel' l.
Proof.
  intros root sgn sel sel' l F [A B C]. split; [exact A| |].
  - intro d. rewrite B. pose proof (posted_on_perm root d _ _ F) as P. split; intros X Y; apply X.
    + rewrite Y in P. now apply Permutation_sym, Permutation_nil in P.
    + rewrite Y in P. now apply Permutation_nil in P.
  - intros d q I. rewrite (C d q I). now rewrite (zsum_perm _ _ (posted_on_perm root d _ _ F)).
Qed.

(** The age of money that stats prints comes from that queue: one age for each
    spending day and each income day it draws on. *)
Definition age_line (x : str) : str := lit "Age of money:" ++ [9; 9] ++ x ++ lit " days" ++ [10].

Theorem C45_ages : forall E O fs out sel exps incs, sane_clock E -> orders E -> filters_for E (o_args O) fs ->
  stats_cmd E O = Outcome out SOk -> picks E O fs (txns 0 (fst (stream E O))) sel -> sel <> [] ->
  days_posted (lit "Expenses") 1 sel exps -> days_posted (lit "Income") (-1) sel incs ->
  Forall (fun y => 0 <= snd y < 2 ^ 63) exps -> Forall (fun y => 0 <= snd y < 2 ^ 63) incs ->
  exists before, out = before ++ [age_line (fmt_fixed 0 (max0 (days_of (mean_age (map (fun '(e, i) => time_sub e i) (fifo exps incs))))))].
Proof.
  intros E O fs out sel exps incs C Or F H P Ne De Di Ge Gi. apply makeFilters_spec in F. unfold stats_cmd, with_filters in H. rewrite F in H.
  unfold finish in H. destruct (stats_run E O fs) as [s r] eqn:R. destruct r; try discriminate.
  destruct (stats_run_banked E O fs s C Or R) as (sel' & P' & [Cc _ _ _ _ _] & B).
  pose proof (picks_same _ _ _ _ _ _ P P') as Same.
  assert (Nz : length sel' <> 0%nat). { inversion Same; subst; [contradiction|discriminate]. }
  injection H as H. unfold stats_report in H. rewrite Cc in H. destruct (Z.eqb_spec (Z.of_nat (length sel')) 0) as [Q|Q]; [lia|]. cbv zeta in H.
  rewrite (all_ages_fifo (h_data s) sel' exps incs) in H; auto.
  - match type of H with ?a ++ ?b ++ ?c ++ [?x1; ?x2; ?x3; ?x4; ?x5; ?x6; ?x7] = _ => exists (a ++ b ++ c ++ [x1; x2; x3; x4; x5; x6]) end.
    rewrite <- H. rewrite <- !app_assoc. reflexivity.
  - apply Forall_forall. intros t I. eapply selected_dated; eauto.
  - eapply days_posted_same; eauto.
  - eapply days_posted_same; eauto.
Qed.

Definition entry (d acc am : String.string) : str :=
  lit d ++ lit " x" ++ [10] ++ lit "    " ++ lit acc ++ lit "  " ++ lit am ++ [10] ++ lit "    b" ++ [10; 10].

(** Pay of 100, then 30 and 100 spent: the second time only 70 are left. *)
Definition text_pay : str :=
  entry "2020-01-01" "Income:w" "-100" ++ entry "2020-01-05" "Expenses:a" "30" ++ entry "2020-01-09" "Expenses:b" "100".
Lemma picks_all : forall E O us, o_begin O = [] -> o_end O = [] -> o_current O = false ->
  forallb (fun u => 0 <=? instant (t_date (u_txn u))) us = true -> picks E O [] us (map (fun u => (u, t_postings (u_txn u))) us).
Proof.
  intros E O us B D C H. induction us as [|u us IH]; [constructor|]. cbn in H. apply andb_true_iff in H as [H1 H2]. cbn [map].
  apply PickIt; auto. apply Z.leb_le in H1. split; [left; auto|right; left; auto].
Qed.
Lemma posted_on_days : forall root sel l d, map (fun '(u, ps) => (t_date (u_txn u), posted root ps)) sel = l ->
  posted_on root sel d = flat_map (fun '(d', qs) => if date_eqb d' d then qs else []) l.
Proof.
  intros root sel l d <-. unfold posted_on. induction sel as [|[u ps] sel IH]; [reflexivity|]. cbn [map flat_map]. now rewrite IH.
Qed.

Example C45_ages_example :
  let E := env0 [(lit "j", text_pay)] in let O := opts3 [] [] false [] in
  let exps := [(Date 2020 1 5, 3000); (Date 2020 1 9, 10000)] in let incs := [(Date 2020 1 1, 10000)] in
  exists sel, picks E O [] (txns 0 (fst (stream E O))) sel /\ sel <> [] /\ filters_for E (o_args O) [] /\
    days_posted (lit "Expenses") 1 sel exps /\ days_posted (lit "Income") (-1) sel incs /\
    fifo exps incs = [(Date 2020 1 5, Date 2020 1 1); (Date 2020 1 9, Date 2020 1 1)] /\
    nth_error (r_out (stats_cmd E O)) 8 = Some (age_line (lit "6")).
Proof.
  cbv zeta. set (E := env0 _). set (O := opts3 _ _ _ _).
  exists (map (fun u => (u, t_postings (u_txn u))) (txns 0 (fst (stream E O)))).
  split; [apply picks_all; vm_compute; reflexivity|]. split; [vm_compute; discriminate|]. split; [apply makeFilters_spec; reflexivity|].
  set (sel := map _ _).
  assert (Pe : forall d, posted_on (lit "Expenses") sel d =
    flat_map (fun '(d', qs) => if date_eqb d' d then qs else []) [(Date 2020 1 1, []); (Date 2020 1 5, [3000]); (Date 2020 1 9, [10000])]).
  { intro d. apply posted_on_days. vm_compute. reflexivity. }
  assert (Pi : forall d, posted_on (lit "Income") sel d =
    flat_map (fun '(d', qs) => if date_eqb d' d then qs else []) [(Date 2020 1 1, [-10000]); (Date 2020 1 5, []); (Date 2020 1 9, [])]).
  { intro d. apply posted_on_days. vm_compute. reflexivity. }
  clearbody sel. split; [|split; [|split; vm_compute; reflexivity]].
  - split.
    + unfold chronological. cbn. repeat constructor; unfold earlier; cbn; lia.
    + intro d. rewrite Pe. cbn [flat_map map fst In].
      destruct (date_eqb (Date 2020 1 1) d), (date_eqb (Date 2020 1 5) d) eqn:Q1, (date_eqb (Date 2020 1 9) d) eqn:Q2;
        rewrite ?date_eqb_eq in *; cbn; split; intro H; try (intro; discriminate); auto;
        try (exfalso; apply H; reflexivity);
        destruct H as [H|[H|[]]]; apply date_eqb_eq in H; congruence.
    + intros d q [I|[I|[]]]; inversion I; subst; rewrite Pe; reflexivity.
  - split.
    + unfold chronological. cbn. repeat constructor; unfold earlier; cbn; lia.
    + intro d. rewrite Pi. cbn [flat_map map fst In].
      destruct (date_eqb (Date 2020 1 1) d) eqn:Q1, (date_eqb (Date 2020 1 5) d) eqn:Q2, (date_eqb (Date 2020 1 9) d) eqn:Q3;
        rewrite ?date_eqb_eq in *; cbn; split; intro H; try (intro; discriminate); auto;
        try (exfalso; apply H; reflexivity);
        destruct H as [H|[]]; apply date_eqb_eq in H; congruence.
    + intros d q [I|[]]; inversion I; subst; rewrite Pi; reflexivity.
Qed.

(** ** C46: the mean *)

(** What is averaged: all the ages but the last eleven if there are more than
    twenty, divided by the number of all. *)
Definition averaged {A} (l : list A) : list A := if 20 <? Z.of_nat (length l) then firstn (length l - 11) l else l.

Lemma wrap_sum : forall l s, fold_left (fun s a => wrap64 (s + a)) l (wrap64 s) = wrap64 (s + zsum l).
Proof.
  induction l as [|x l IH]; intro s; cbn [fold_left zsum fold_right]; [f_equal; lia|]. rewrite wrap64_add_l, IH. f_equal. fold (zsum l). lia.
Qed.

Theorem C46_mean_partial : forall ages, - 2 ^ 63 <= zsum (averaged ages) < 2 ^ 63 ->
  mean_age ages = Z.quot (zsum (averaged ages)) (Z.max 1 (Z.of_nat (length ages))).
Proof.
  intros ages H. unfold mean_age, averaged in *. cbv zeta.
  assert (Q : firstn (Z.to_nat (Z.of_nat (length ages) - (if 20 <? Z.of_nat (length ages) then 11 else 0))) ages =
    (if 20 <? Z.of_nat (length ages) then firstn (length ages - 11) ages else ages)).
  { destruct (20 <? Z.of_nat (length ages)).
    - f_equal. lia.
    - rewrite Z.sub_0_r, Nat2Z.id. apply firstn_all. }
  rewrite Q. match goal with |- context [fold_left ?f ?l 0] => pose proof (wrap_sum l 0) as W end.
  change (wrap64 0) with 0 in W. rewrite W, Z.add_0_l. now rewrite wrap64_id.
Qed.

(** In days: the mean rounded to the nearest whole number (up or down when
    halfway), 0 if it is negative. *)
Definition days_from (i e : date) (n : Z) : Prop := days_later n i e \/ days_later (- n) e i.

Theorem C46_days_partial : forall pairs ns, Forall2 (fun '(e, i) n => days_from i e n) pairs ns ->
  Forall (fun n => Z.abs n <= 106751) ns -> Z.abs (zsum (averaged ns)) <= 106751 -> Z.of_nat (length ns) <= 10 ^ 9 ->
  let count := Z.max 1 (Z.of_nat (length ns)) in
  exists k, fmt_fixed 0 (max0 (days_of (mean_age (map (fun '(e, i) => time_sub e i) pairs)))) = itoa k /\
    2 * Z.abs (k * count - Z.max 0 (zsum (averaged ns))) <= count.
Proof.
  intros pairs ns F B S K count.
  assert (Q : map (fun '(e, i) => time_sub e i) pairs = map (fun n => n * day_ns) ns).
  { clear S K count. induction F as [|[e i] n pairs ns D _ IH]; [reflexivity|]. inversion B; subst. cbn [map]. f_equal; [|auto].
    destruct D as [D|D]; [apply time_sub_days; [exact D|lia]|]. rewrite (time_sub_neg (- n)) by (auto; lia). lia. }
  rewrite Q. assert (Km : averaged (map (fun n => n * day_ns) ns) = map (fun n => n * day_ns) (averaged ns)).
  { unfold averaged. rewrite map_length. destruct (20 <? _); [|reflexivity]. now rewrite firstn_map. }
  assert (Sm : forall l, zsum (map (fun n => n * day_ns) l) = zsum l * day_ns).
  { induction l as [|x l IH]; [reflexivity|]. cbn [map zsum fold_right]. fold (zsum (map (fun n => n * day_ns) l)) (zsum l). rewrite IH. lia. }
  assert (Dv : day_ns = 86400000000000) by reflexivity.
  rewrite C46_mean_partial; rewrite Km, Sm, ?map_length; [|change (2 ^ 63) with 9223372036854775808; lia].
  fold count. assert (C1 : 1 <= count <= 10 ^ 9) by lia. change (10 ^ 9) with 1000000000 in C1. clearbody count. clear F B Q Km Sm K.
  set (m := zsum (averaged ns)) in *. clearbody m.
  assert (POS : forall m, 0 < m <= 106751 -> let d := Z.quot (m * day_ns) count in 0 < d < 2 ^ 63 /\ d * count <= m * day_ns < d * count + count).
  { clear m S. intros m M. cbv zeta. pose proof (Z.quot_rem' (m * day_ns) count) as E.
    pose proof (Z.rem_bound_pos (m * day_ns) count ltac:(lia) ltac:(lia)) as R. set (d := Z.quot (m * day_ns) count) in *.
    set (r := Z.rem (m * day_ns) count) in *. clearbody d r. change (2 ^ 63) with 9223372036854775808. rewrite Dv in *. nia. }
  destruct (Z.compare_spec m 0) as [Z0|Z0|Z0].
  - subst m. exists 0. rewrite Z.mul_0_l, Z.quot_0_l by lia. split; [reflexivity|]. rewrite Z.max_l by lia. cbn. lia.
  - exists 0. destruct (POS (- m) ltac:(lia)) as [D _]. cbv zeta in D. split.
    + replace (m * day_ns) with (- (- m * day_ns)) by ring. rewrite Z.quot_opp_l by lia. now apply days_negative.
    + rewrite Z.max_l by lia. cbn. lia.
  - destruct (POS m ltac:(lia)) as [D E]. cbv zeta in D, E. set (d := Z.quot (m * day_ns) count) in *. clearbody d.
    destruct (days_shown d D) as (k & -> & K0 & R). exists k. split; [reflexivity|]. rewrite Z.max_r by lia.
    assert (R' : 2 * Z.abs (k * count * day_ns - d * count) <= (day_ns + 10240) * count).
    { replace (k * count * day_ns - d * count) with ((k * day_ns - d) * count) by ring. rewrite Z.abs_mul, (Z.abs_eq count) by lia.
      rewrite Z.mul_assoc. apply Z.mul_le_mono_nonneg_r; lia. }
    rewrite Z.mul_add_distr_r in R'. rewrite Dv in *. set (kc := k * count) in *. set (dc := d * count) in *. clearbody kc dc. lia.
Qed.

(** Pay on the 1st of January, one unit spent on each of the 21 days after it:
    the ages are 1 to 21 days.  Their mean is 11, that of the last ten 16.5; the
    program says 3. *)
Definition text21 : str :=
  (entry "2020-01-01" "Income:w" "-1000" ++
  entry "2020-01-02" "Expenses:a" "1" ++ entry "2020-01-03" "Expenses:a" "1" ++ entry "2020-01-04" "Expenses:a" "1" ++
  entry "2020-01-05" "Expenses:a" "1" ++ entry "2020-01-06" "Expenses:a" "1" ++ entry "2020-01-07" "Expenses:a" "1" ++
  entry "2020-01-08" "Expenses:a" "1" ++ entry "2020-01-09" "Expenses:a" "1" ++ entry "2020-01-10" "Expenses:a" "1" ++
  entry "2020-01-11" "Expenses:a" "1" ++ entry "2020-01-12" "Expenses:a" "1" ++ entry "2020-01-13" "Expenses:a" "1" ++
  entry "2020-01-14" "Expenses:a" "1" ++ entry "2020-01-15" "Expenses:a" "1" ++ entry "2020-01-16" "Expenses:a" "1" ++
  entry "2020-01-17" "Expenses:a" "1" ++ entry "2020-01-18" "Expenses:a" "1" ++ entry "2020-01-19" "Expenses:a" "1" ++
  entry "2020-01-20" "Expenses:a" "1" ++ entry "2020-01-21" "Expenses:a" "1" ++ entry "2020-01-22" "Expenses:a" "1").
Definition lasts {A} (n : nat) (l : list A) : list A := skipn (length l - n) l.

Theorem C46_mean_refuted : exists E O ns,
  let s := h_data (fst (stats_run E O [])) in
  stats_run E O [] = (HS 22 [] s, SOk) /\ all_ages s = map (fun n => n * day_ns) ns /\
  nth_error (r_out (stats_cmd E O)) 8 = Some (age_line (lit "3")) /\
  zsum ns / Z.of_nat (length ns) = 11 /\ zsum (lasts 10 ns) * 2 = 33 * 10.
Proof.
  exists (env0 [(lit "j", text21)]), (opts3 [] [] false []), (map Z.of_nat (seq 1 21)). cbv zeta.
  split; [vm_compute; reflexivity|]. split; [vm_compute; reflexivity|]. split; [vm_compute; reflexivity|]. split; vm_compute; reflexivity.
Qed.

(** And the sum can leave the range of a Go Duration: two ages of 150 years, and
    the age of money is said to be 0. *)
Definition text_old : str :=
  entry "1750-01-01" "Income:w" "-1000" ++ entry "1900-01-01" "Expenses:a" "1" ++ entry "1901-01-01" "Expenses:a" "1".
Theorem C46_overflow_refuted : exists E O,
  let s := h_data (fst (stats_run E O [])) in
  stats_run E O [] = (HS 3 [] s, SOk) /\ all_ages s = [54786 * day_ns; 55151 * day_ns] /\
  nth_error (r_out (stats_cmd E O)) 8 = Some (age_line (lit "0")).
Proof.
  exists (env0 [(lit "j", text_old)]), (opts3 [] [] false []). cbv zeta.
  split; [vm_compute; reflexivity|]. split; vm_compute; reflexivity.
Qed.

(** 10, 12 and 12 days: on average 11 and a third. *)
Example C46_example :
  let pairs := [(Date 2020 1 11, Date 2020 1 1); (Date 2020 1 13, Date 2020 1 1); (Date 2020 1 14, Date 2020 1 2)] in
  let ns := [10; 12; 12] in
  Forall2 (fun '(e, i) n => days_from i e n) pairs ns /\ Forall (fun n => Z.abs n <= 106751) ns /\ averaged ns = ns /\
  Z.abs (zsum (averaged ns)) <= 106751 /\ Z.of_nat (length ns) <= 10 ^ 9 /\
  fmt_fixed 0 (max0 (days_of (mean_age (map (fun '(e, i) => time_sub e i) pairs)))) = lit "11".
Proof.
  cbv zeta. assert (K : forall n a b, real_date a -> real_date b -> instant b = instant a + n * 86400 -> 0 <= n -> days_later n a b).
  { intros n a b Ra Rb Q L. destruct (days_between a b Ra Rb) as [n' H].
    - intro X. apply earlier_instant in X; auto. lia.
    - pose proof (days_later_number _ _ _ H) as (_ & _ & _ & Q'). replace n with n' by lia. exact H. }
  split; [|repeat split; try (vm_compute; reflexivity); try (repeat constructor; lia); vm_compute; discriminate].
  assert (R : forall d, 1 <= d <= 31 -> real_date (Date 2020 1 d)) by (intros d H; left; cbn; auto).
  constructor; [|constructor; [|constructor; [|constructor]]]; left; apply K; try (apply R; lia); try lia; vm_compute; reflexivity.
Qed.

(** ** C63: the time period *)

(** stats prints the number of days from the first transaction to the last, 292
    years at most. *)
Theorem C63_period : forall E O fs out sel, sane_clock E -> orders E -> filters_for E (o_args O) fs ->
  stats_cmd E O = Outcome out SOk -> picks E O fs (txns 0 (fst (stream E O))) sel -> sel <> [] ->
  Forall (fun t => t_date t <> Date 1 1 1) (selected sel) ->
  exists first last n, earliest sel first /\ latest sel last /\ days_later n first last /\
    In (lit "Time period:" ++ [9; 9] ++ itoa (Z.min n 106752) ++ lit " days" ++ [10]) out.
Proof.
  intros E O fs out sel C Or F H P Ne Nz. apply makeFilters_spec in F. unfold stats_cmd, with_filters in H. rewrite F in H.
  unfold finish in H. destruct (stats_run E O fs) as [s r] eqn:R. destruct r; try discriminate.
  destruct (stats_run_banked E O fs s C Or R) as (sel' & P' & [Cc _ _ _ _ Cd] & B).
  assert (Sm : selected sel = selected sel').
  { unfold selected. rewrite <- !(map_map fst u_txn). f_equal. eapply picks_fun; eauto. }
  assert (Ne' : sel' <> []). { intros ->. destruct sel; [contradiction|discriminate]. }
  injection H as H. unfold stats_report in H. rewrite Cc in H. destruct (Z.eqb_spec (Z.of_nat (length sel')) 0) as [Q|Q]; [destruct sel'; [contradiction|discriminate]|].
  cbv zeta in H. rewrite Sm in Nz. destruct (Cd Nz Ne') as [[I1 L1] [I2 L2]].
  assert (RD : forall d, In d (map t_date (selected sel')) -> real_date d).
  { intros d I. apply in_map_iff in I as (t & <- & I). eapply selected_dated; eauto. }
  rewrite Forall_forall in L1, L2. destruct (days_between (s_first (h_data s)) (s_last (h_data s))) as [n D]; auto.
  { intro X. apply instant_order in X; auto. specialize (L1 _ I2). lia. }
  exists (s_first (h_data s)), (s_last (h_data s)), n. unfold earliest, latest. rewrite Sm. split; [|split; [|split; [exact D|]]].
  - split; [exact I1|]. intros d I X. apply instant_order in X; auto. specialize (L1 d I). lia.
  - split; [exact I2|]. intros d I X. apply instant_order in X; auto. specialize (L2 d I). lia.
  - rewrite <- H. apply in_app_iff. right. apply in_app_iff. right. apply in_app_iff. right. right. right. left.
    rewrite (period_text n) by exact D. reflexivity.
Qed.

Example C63_example : nth_error (r_out (stats_cmd (env0 [(lit "j", text21)]) (opts3 [] [] false []))) 4 =
  Some (lit "Time period:" ++ [9; 9] ++ lit "21 days" ++ [10]) /\
  nth_error (r_out (stats_cmd (env0 [(lit "j", entry "1600-01-01" "Income:w" "-1" ++ entry "2000-01-01" "Income:w" "-1")]) (opts3 [] [] false []))) 4 =
  Some (lit "Time period:" ++ [9; 9] ++ lit "106752 days" ++ [10]).
Proof. split; vm_compute; reflexivity. Qed.

(** ** C76: transactions per day *)

(** The numeral of k tenths. *)
Definition tenths_text (k : Z) (s : str) : Prop := 0 <= k /\ exists w, canonical w (k / 10) /\ s = w ++ [46; 48 + k mod 10].
Definition rate_line (nt rate : str) : str := lit "Transactions:" ++ [9; 9] ++ nt ++ lit " (" ++ rate ++ lit " per day)" ++ [10].

(** When the first and last transaction are some days apart, stats prints the
    number of transactions over the days it says there are, to the nearest tenth.
    Missing: all on one day, for which it is false. *)
Theorem C76_rate_partial : forall E O fs out sel, sane_clock E -> orders E -> filters_for E (o_args O) fs ->
  stats_cmd E O = Outcome out SOk -> picks E O fs (txns 0 (fst (stream E O))) sel -> sel <> [] ->
  Forall (fun t => t_date t <> Date 1 1 1) (selected sel) -> Z.of_nat (length sel) < 10 ^ 14 ->
  exists first last n, earliest sel first /\ latest sel last /\ days_later n first last /\
    let days := Z.min n 106752 in
    In (lit "Time period:" ++ [9; 9] ++ itoa days ++ lit " days" ++ [10]) out /\
    exists nt rate, canonical nt (Z.of_nat (length sel)) /\ In (rate_line nt rate) out /\
      (days = 0 -> rate = lit "+Inf") /\
      (0 < days -> exists k, tenths_text k rate /\ 2 * Z.abs (k * days - 10 * Z.of_nat (length sel)) <= days).
Proof.
  intros E O fs out sel C Or F H P Ne Nz Len. apply makeFilters_spec in F. unfold stats_cmd, with_filters in H. rewrite F in H.
  unfold finish in H. destruct (stats_run E O fs) as [s r] eqn:R. destruct r; try discriminate.
  destruct (stats_run_banked E O fs s C Or R) as (sel' & P' & [Cc _ _ _ _ Cd] & B).
  assert (Sm : selected sel = selected sel').
  { unfold selected. rewrite <- !(map_map fst u_txn). f_equal. eapply picks_fun; eauto. }
  assert (Le : length sel = length sel') by (rewrite <- (map_length (fun x => u_txn (fst x)) sel), <- (map_length (fun x => u_txn (fst x)) sel'); exact (f_equal (@length _) Sm)).
  assert (Ne' : sel' <> []). { intros ->. destruct sel; [contradiction|discriminate]. }
  injection H as H. unfold stats_report in H. rewrite Cc in H. destruct (Z.eqb_spec (Z.of_nat (length sel')) 0) as [Q|Q]; [destruct sel'; [contradiction|discriminate]|].
  cbv zeta in H. rewrite Sm in Nz. destruct (Cd Nz Ne') as [[I1 L1] [I2 L2]].
  assert (RD : forall d, In d (map t_date (selected sel')) -> real_date d).
  { intros d I. apply in_map_iff in I as (t & <- & I). eapply selected_dated; eauto. }
  rewrite Forall_forall in L1, L2. destruct (days_between (s_first (h_data s)) (s_last (h_data s))) as [n D]; auto.
  { intro X. apply instant_order in X; auto. specialize (L1 _ I2). lia. }
  exists (s_first (h_data s)), (s_last (h_data s)), n. unfold earliest, latest. rewrite Sm. split; [|split; [|split; [exact D|]]].
  - split; [exact I1|]. intros d I X. apply instant_order in X; auto. specialize (L1 d I). lia.
  - split; [exact I2|]. intros d I X. apply instant_order in X; auto. specialize (L2 d I). lia.
  - cbv zeta. split.
    + rewrite <- H. apply in_app_iff. right. apply in_app_iff. right. apply in_app_iff. right. right. right. left.
      rewrite (period_text n) by exact D. reflexivity.
    + rewrite (period_float n) in H by exact D. rewrite <- Le in *.
      exists (itoa (Z.of_nat (length sel))), (fmt_fixed 1 (float_div (float_of_int (Z.of_nat (length sel))) (float_of_int (Z.min n 106752)))).
      split; [apply canonical_z; lia|]. split; [|split].
      * rewrite <- H. apply in_app_iff. right. apply in_app_iff. right. apply in_app_iff. right. right. right. right. left. reflexivity.
      * intros ->. assert (L0 : 0 < Z.of_nat (length sel) < 2 ^ 53) by (change (10 ^ 14) with 100000000000000 in Len; change (2 ^ 53) with 9007199254740992; lia).
        destruct (Z.of_nat (length sel)) as [|a|a]; [lia| |lia]. destruct (float_of_int_small false a ltac:(lia)) as (m & EM & _).
        unfold float_of_int at 1. cbn [binary_normalize]. rewrite EM. reflexivity.
      * intro Pd. destruct (rate_text (Z.of_nat (length sel)) (Z.min n 106752)) as (k & T & K0 & K).
        { destruct sel; [contradiction|cbn; lia]. }
        { change (10 ^ 14) with 100000000000000 in Len. change (2 ^ 53) with 9007199254740992. lia. }
        { change (2 ^ 53) with 9007199254740992. lia. }
        exists k. split; [|exact K]. split; [exact K0|]. exists (itoa_nat (k / 10)). split; [apply canonical_itoa, Z.div_pos; lia|].
        rewrite T. unfold decimal. change (10 ^ Z.of_nat 1) with 10. cbn [app fixed_digits]. now rewrite Zmod_mod.
Qed.

Example C76_example : nth_error (r_out (stats_cmd (env0 [(lit "j", text21)]) (opts3 [] [] false []))) 5 = Some (rate_line (lit "22") (lit "1.0")) /\
  tenths_text 10 (lit "1.0").
Proof. split; [vm_compute; reflexivity|]. split; [lia|]. exists (lit "1"). split; [|reflexivity]. change (lit "1") with (itoa_nat (10 / 10)); apply canonical_itoa; vm_compute; discriminate. Qed.

(** A single day: "+Inf per day". *)
Theorem C76_rate_refuted : exists E O fs sel out, sane_clock E /\ orders E /\ filters_for E (o_args O) fs /\ stats_cmd E O = Outcome out SOk /\
  picks E O fs (txns 0 (fst (stream E O))) sel /\ length sel = 1%nat /\ In (rate_line (lit "1") (lit "+Inf")) out.
Proof.
  set (E := env0 [(lit "j", entry "2020-01-01" "Income:w" "-1")]). set (O := opts3 [] [] false []).
  exists E, O, [], (map (fun u => (u, t_postings (u_txn u))) (txns 0 (fst (stream E O)))), (r_out (stats_cmd E O)).
  split; [apply env0_clock|]. split; [apply env0_orders|]. split; [apply makeFilters_spec; reflexivity|]. split; [vm_compute; reflexivity|].
  split; [apply picks_all; vm_compute; reflexivity|]. split; [vm_compute; reflexivity|].
  apply nth_error_In with (n := 5%nat). vm_compute. reflexivity.
Qed.
