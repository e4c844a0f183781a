(** * Income and expenses by day *)
From Verif Require Import Base BaseFacts GoTime Strconv Journal Lexer Parser Account Reporting Budget Cmd CalendarFacts TextSpec
  CmdSpec StreamFacts CmdFacts PropsCmd PropsStats AgeFacts.

Definition zsum (l : list Z) : Z := fold_right Z.add 0 l.
Lemma zsum_app : forall a b, zsum (a ++ b) = zsum a + zsum b.
Proof. induction a as [|x a IH]; intro b; [reflexivity|]. cbn [app zsum fold_right]. fold (zsum (a ++ b)) (zsum a). rewrite IH. lia. Qed.

(** The amounts posted under [root] in one transaction, and on one day. *)
Definition under (root : str) (p : posting) : bool := str_eqb (hd [] (split 58 (po_account p))) root.
Definition posted (root : str) (ps : list posting) : list Z :=
  flat_map (fun p => if under root p then match po_amount p with Some a => [am_quantity a] | None => [] end else []) ps.
Definition posted_on (root : str) (sel : list (used * list posting)) (d : date) : list Z :=
  flat_map (fun '(u, ps) => if date_eqb (t_date (u_txn u)) d then posted root ps else []) sel.

(** A map from days to [sgn] times the sum of the amounts [g]. *)
Record bank (m : list (date * Z)) (g : date -> list Z) (sgn : Z) : Prop := {
  bk_nodup : NoDup (map fst m);
  bk_keys : forall d, In d (map fst m) <-> g d <> [];
  bk_sum : forall d, bucket d m = wrap64 (sgn * zsum (g d)) }.

Lemma bank_ext : forall m g g' sgn, (forall d, g d = g' d) -> bank m g sgn -> bank m g' sgn.
Proof. intros m g g' sgn X [A B C]. split; auto; intro d; rewrite <- X; auto. Qed.

Lemma date_eqb_refl : forall d, date_eqb d d = true. Proof. intro. now apply date_eqb_eq. Qed.

Lemma bank_add : forall m g sgn d q, bank m g sgn ->
  bank (assoc_set date_eqb d (wrap64 (bucket d m + sgn * q)) m) (fun d' => g d' ++ if date_eqb d d' then [q] else []) sgn.
Proof.
  intros m g sgn d q [A B C].
  assert (K : forall x, In x (map fst (assoc_set date_eqb d (wrap64 (bucket d m + sgn * q)) m)) <-> x = d \/ In x (map fst m)).
  { intro x. rewrite assoc_set_keys by apply date_eqb_eq. destruct (existsb (date_eqb d) (map fst m)) eqn:Q.
    - apply existsb_exists in Q as (y & I & Q). apply date_eqb_eq in Q. subst y. intuition congruence.
    - rewrite in_app_iff. cbn. intuition congruence. }
  split.
  - rewrite assoc_set_keys by apply date_eqb_eq. destruct (existsb (date_eqb d) (map fst m)) eqn:Q; [exact A|].
    apply (Permutation_NoDup (l := d :: map fst m)); [apply Permutation_cons_append|]. constructor; [|exact A].
    intro I. assert (existsb (date_eqb d) (map fst m) = true); [|congruence]. apply existsb_exists. exists d. split; auto using date_eqb_refl.
  - intro x. rewrite K, B. destruct (date_eqb d x) eqn:Q.
    + apply date_eqb_eq in Q. subst. split; [|auto]. intros _ X. apply app_eq_nil in X as [_ X]. discriminate.
    + rewrite app_nil_r. split; [|auto]. intros [->|H]; [now rewrite date_eqb_refl in Q|exact H].
  - intro x. destruct (date_eqb d x) eqn:Q.
    + apply date_eqb_eq in Q. subst x. rewrite bucket_set_same, C, wrap64_add_l, zsum_app. f_equal. cbn. lia.
    + rewrite bucket_set_other, C, app_nil_r; [reflexivity|]. intros ->. now rewrite date_eqb_refl in Q.
Qed.

Definition both (st : list (date * Z) * list (date * Z)) (gi ge : date -> list Z) : Prop :=
  bank (fst st) gi (-1) /\ bank (snd st) ge 1.

Definition of_day (root : str) (d : date) (ps : list posting) (d' : date) : list Z := if date_eqb d d' then posted root ps else [].

Lemma posted_cons : forall root p ps, posted root (p :: ps) = posted root [p] ++ posted root ps.
Proof. intros. unfold posted. cbn [flat_map]. now rewrite app_nil_r. Qed.

Lemma posting_banked : forall d p st st' gi ge, both st gi ge -> stats_posting d (Some st) p = Some st' ->
  both st' (fun x => gi x ++ of_day IncomeID d [p] x) (fun x => ge x ++ of_day ExpensesID d [p] x).
Proof.
  intros d p [inc exp] st' gi ge [A B] H. unfold stats_posting in H. cbn [fst snd] in *. change colon with 58 in H.
  assert (N : forall g : date -> list Z, forall x, g x = g x ++ (if date_eqb d x then [] else [])).
  { intros g x. destruct (date_eqb d x); now rewrite app_nil_r. }
  unfold of_day, posted, under. cbn [flat_map]. destruct (str_eqb (hd [] (split 58 (po_account p))) IncomeID) eqn:Q1.
  - apply str_eqb_eq in Q1. rewrite Q1. change (str_eqb IncomeID ExpensesID) with false. cbn iota.
    destruct (po_amount p) as [a|]; [|discriminate]. inversion H; subst st'. split; cbn [fst snd app].
    + replace (bucket d inc - am_quantity a) with (bucket d inc + -1 * am_quantity a) by lia. now apply bank_add.
    + eapply bank_ext; [|exact B]. apply N.
  - destruct (str_eqb (hd [] (split 58 (po_account p))) ExpensesID) eqn:Q2.
    + destruct (po_amount p) as [a|]; [|discriminate]. inversion H; subst st'. split; cbn [fst snd app].
      * eapply bank_ext; [|exact A]. apply N.
      * replace (bucket d exp + am_quantity a) with (bucket d exp + 1 * am_quantity a) by lia. now apply bank_add.
    + inversion H; subst st'. split; cbn [fst snd app]; (eapply bank_ext; [|eassumption]); apply N.
Qed.

Lemma postings_banked : forall d ps st st' gi ge, both st gi ge -> fold_left (stats_posting d) ps (Some st) = Some st' ->
  both st' (fun x => gi x ++ of_day IncomeID d ps x) (fun x => ge x ++ of_day ExpensesID d ps x).
Proof.
  induction ps as [|p ps IH]; intros st st' gi ge B H; cbn [fold_left] in H.
  - inversion H; subst. unfold of_day, posted. cbn. destruct B as [B1 B2].
    split; (eapply bank_ext; [|eassumption]); intro x; cbn; destruct (date_eqb d x); now rewrite app_nil_r.
  - destruct (stats_posting d (Some st) p) as [st1|] eqn:Q.
    + specialize (IH _ _ _ _ (posting_banked _ _ _ _ _ _ B Q) H). destruct IH as [I1 I2].
      split; (eapply bank_ext; [|eassumption]); intro x; cbn beta; rewrite <- app_assoc; f_equal; unfold of_day;
        destruct (date_eqb d x); try reflexivity; symmetry; apply posted_cons.
    + exfalso. clear - H. induction ps; [discriminate|]. apply IHps. exact H.
Qed.

Definition banked (sel : list (used * list posting)) (s : stats) : Prop :=
  both (s_income s, s_expense s) (posted_on (lit "Income") sel) (posted_on (lit "Expenses") sel).

Lemma banked_new : banked [] newStats.
Proof.
  split; (split; [constructor| |reflexivity]); intro d; (split; [intros []|intro X; now apply X]).
Qed.

Lemma banked_step : forall sel s u ps s', banked sel s -> stats_step s (u_txn u) ps (u_path u) = Some s' -> banked (sel ++ [(u, ps)]) s'.
Proof.
  intros sel s u ps s' B H. unfold stats_step in H.
  destruct (fold_left _ ps _) as [st|] eqn:Q; [|discriminate]. pose proof (postings_banked _ _ _ _ _ _ B Q) as [B1 B2].
  destruct st as [inc exp]. injection H as <-. unfold banked. cbn [s_income s_expense].
  split; (eapply bank_ext; [|eassumption]); intro x; cbn beta; unfold posted_on; rewrite flat_map_app; cbn [flat_map];
    now rewrite app_nil_r.
Qed.

(** The run of stats: what is in the two maps. *)
Lemma stats_run_banked : forall E O fs s, sane_clock E -> orders E -> stats_run E O fs = (s, SOk) ->
  exists sel, picks E O fs (txns 0 (fst (stream E O))) sel /\ counted sel (h_data s) /\ banked sel (h_data s).
Proof.
  intros E O fs s C Or R. unfold stats_run in R. apply parse_cmd_ok in R as [St R].
  destruct (checked_run E O C Or _ fs stats_handler None (fun sel s => counted sel (h_data s) /\ banked sel (h_data s)))
    with (evs := fst (stream E O)) (sel := @nil (used * list posting)) (s := HS 0 [] newStats) (s' := s) as [F (more & P & D)]; auto.
  - intros sel s1 u ps s' [H1 H2] _ _ _ _ K. unfold stats_handler in K. destruct (stats_step (h_data s1) (u_txn u) ps (u_path u)) as [d|] eqn:Es; [|discriminate].
    inversion K; subst. split; [|reflexivity]. cbn. split; [eapply counted_step; eauto|eapply banked_step; eauto].
  - intros sel s1 pt p s' H K. inversion K; subst. auto.
  - split; [exact counted_new|exact banked_new].
  - eauto.
Qed.

(** ** Days in order *)
Definition chronological (l : list (date * Z)) : Prop := StronglySorted earlier (map fst l).

Lemma sort_dates_unique : forall l l', Forall real_date l -> Permutation l l' -> StronglySorted earlier l -> sort_dates l' = l.
Proof.
  intros l l' R P S. symmetry. assert (R' : Forall real_date l') by (eapply Permutation_Forall; eauto).
  apply (sorted_perm_unique (fun a b => instant a <= instant b)).
  - intros a b Ia Ib X Y. rewrite Forall_forall in R. apply instant_inj; auto. lia.
  - clear P. induction S as [|x l S IH F]; [constructor|]. inversion R; subst. constructor; [auto|].
    rewrite Forall_forall in *. intros y I. specialize (F y I). apply earlier_instant in F; auto. lia.
  - assert (X : StronglySorted (le date_before) (sort_dates l')).
    { apply isort_sorted; unfold le, date_before; intros; rewrite ?Z.ltb_ge, ?Z.ltb_lt in *; lia. }
    clear - X. induction X as [|x l S IH F]; constructor; auto. eapply Forall_impl; [|exact F]. unfold le, date_before. cbn.
    intros a Q. apply Z.ltb_ge in Q. lia.
  - rewrite P. symmetry. apply isort_perm.
Qed.

(** The days on which [root] was posted to, in order, with [sgn] times the sum. *)
Record days_posted (root : str) (sgn : Z) (sel : list (used * list posting)) (l : list (date * Z)) : Prop := {
  dp_order : chronological l;
  dp_days : forall d, In d (map fst l) <-> posted_on root sel d <> [];
  dp_sum : forall d q, In (d, q) l -> q = sgn * zsum (posted_on root sel d) }.

Lemma sorted_nodup : forall l, Forall real_date l -> StronglySorted earlier l -> NoDup l.
Proof.
  induction l as [|x l IH]; intros R S; constructor; inversion S; subst; inversion R; subst; auto.
  intro I. rewrite Forall_forall in *. assert (X : earlier x x) by auto. apply earlier_instant in X; auto. lia.
Qed.

Lemma days_perm : forall root sgn sel l m, Forall (fun t => real_date (t_date t)) (selected sel) -> Forall good_day l ->
  days_posted root sgn sel l -> bank m (posted_on root sel) sgn ->
  Forall real_date (map fst l) /\ NoDup (map fst l) /\ Permutation (map fst l) (map fst m) /\ (forall d q, In (d, q) l -> bucket d m = q).
Proof.
  intros root sgn sel l m R G [O D S] [B1 B2 B3].
  assert (Rl : Forall real_date (map fst l)).
  { apply Forall_forall. intros d I. apply D in I. unfold posted_on in I.
    assert (exists u ps, In (u, ps) sel /\ t_date (u_txn u) = d) as (u & ps & J & <-).
    { clear - I. induction sel as [|[u ps] sel IH]; [contradiction|]. cbn [flat_map] in I. destruct (date_eqb (t_date (u_txn u)) d) eqn:Q.
      - apply date_eqb_eq in Q. exists u, ps. split; [now left|exact Q].
      - destruct (IH I) as (u' & ps' & J & Q'). exists u', ps'. split; [now right|exact Q']. }
    rewrite Forall_forall in R. apply R. unfold selected. apply in_map_iff. exists (u, ps). auto. }
  split; [exact Rl|]. pose proof (sorted_nodup _ Rl O) as N. split; [exact N|]. split.
  - apply NoDup_Permutation; auto. intro d. rewrite D, B2. reflexivity.
  - intros d q I. rewrite B3, <- (S _ _ I). apply wrap64_id. rewrite Forall_forall in G. specialize (G _ I). unfold good_day in G. cbn in G. unfold in_int64. lia.
Qed.

(** The ages that stats computes are those of the queue. *)
Lemma all_ages_fifo : forall s sel exps incs, Forall (fun t => real_date (t_date t)) (selected sel) -> banked sel s ->
  days_posted (lit "Expenses") 1 sel exps -> days_posted (lit "Income") (-1) sel incs -> Forall good_day exps -> Forall good_day incs ->
  all_ages s = map (fun '(e, i) => time_sub e i) (fifo exps incs).
Proof.
  intros s sel exps incs R [B1 B2] De Di Ge Gi. cbn [fst snd] in *.
  destruct (days_perm _ _ _ _ _ R Ge De B2) as (Re & Ne & Pe & Se). destruct (days_perm _ _ _ _ _ R Gi Di B1) as (Ri & Ni & Pi & Si).
  unfold all_ages. rewrite (sort_dates_unique (map fst exps)), (sort_dates_unique (map fst incs)); auto.
  - rewrite (age_loop_spec exps incs 0); auto; [|lia|].
    + unfold fifo. induction (laid 0 exps) as [|[[e a] b] l IH]; [reflexivity|]. cbn [flat_map]. rewrite map_app, IH. f_equal.
      clear. induction (laid 0 incs) as [|[[i c] d] l IH]; [reflexivity|]. cbn [flat_map]. rewrite map_app, IH. f_equal.
      destruct (touches a b c d); reflexivity.
    + intros iv I. assert (G : exists q, In (day iv, q) incs /\ snd iv - snd (fst iv) = q /\ 0 <= snd (fst iv) <= snd iv).
      { revert I. clear - Gi. assert (X : forall from, 0 <= from -> In iv (laid from incs) -> exists q, In (day iv, q) incs /\ snd iv - snd (fst iv) = q /\ 0 <= snd (fst iv) <= snd iv).
        { induction incs as [|[i q] incs IH]; intros from P I; [destruct I|]. inversion Gi as [|? ? G Gi']; subst. unfold good_day in G. cbn in G.
          destruct I as [<-|I]; [exists q; cbn; split; [now left|lia]|]. destruct (IH Gi' (from + q)) as (q' & J & K); [lia|exact I|].
          exists q'. split; [now right|exact K]. }
        intro I. apply (X 0); [lia|exact I]. }
      destruct G as (q & I' & Q & L). rewrite (Si _ _ I'). destruct iv as [[d c] f]. cbn in *. lia.
  - exact (dp_order _ _ _ _ Di).
  - exact (dp_order _ _ _ _ De).
Qed.
