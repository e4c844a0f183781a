(** * C94 and C114 of stats: with arguments, the order of maps still does not matter *)
From Verif Require Import Base BaseFacts Utf8 Unicode GoTime Strconv Display Journal Lexer Parser Account Reporting Budget FlatSpec Spec TextSpec DateFacts Sample ParseRel CmdSpec CmdFacts Cmd AgeFacts BankFacts PropsCmd PropsBalance PropsAgain Main MainSpec PropsMain PropsMachine PropsArgs.

(** ** One transaction's postings in another order *)
Lemma assoc_set_twice : forall d (v v' : Z) m, assoc_set date_eqb d v (assoc_set date_eqb d v' m) = assoc_set date_eqb d v m.
Proof.
  intros d v v' m. induction m as [|[k x] m IH]; cbn [assoc_set]; [now rewrite date_eqb_refl|].
  destruct (date_eqb d k) eqn:K; cbn [assoc_set]; rewrite K; [reflexivity|]. now rewrite IH.
Qed.
Lemma wrap_add : forall a b, wrap64 (wrap64 a + b) = wrap64 (a + b).
Proof. intros a b. unfold wrap64. f_equal. replace ((a + two63) mod two64 - two63 + b + two63) with ((a + two63) mod two64 + b) by lia. rewrite Zplus_mod_idemp_l. f_equal. lia. Qed.

Lemma posting_swap : forall d st p q, stats_posting d (stats_posting d st p) q = stats_posting d (stats_posting d st q) p.
Proof.
  intros d [[inc exp]|] p q; [|reflexivity]. unfold stats_posting.
  destruct (str_eqb (hd [] (split colon (po_account p))) IncomeID) eqn:Ip, (str_eqb (hd [] (split colon (po_account q))) IncomeID) eqn:Iq;
    destruct (str_eqb (hd [] (split colon (po_account p))) ExpensesID) eqn:Xp, (str_eqb (hd [] (split colon (po_account q))) ExpensesID) eqn:Xq;
    destruct (po_amount p) as [ap|], (po_amount q) as [aq|]; try reflexivity;
    rewrite !bucket_set_same, !assoc_set_twice; do 3 f_equal.
  all: rewrite <- ?Z.add_opp_r, !wrap_add; f_equal; lia.
Qed.
Lemma postings_order : forall d ps ps', Permutation ps ps' -> forall st, fold_left (stats_posting d) ps st = fold_left (stats_posting d) ps' st.
Proof.
  intros d ps ps' P. induction P as [|x l l' _ IH|x y l|l l' l'' _ IH1 _ IH2]; intro st; cbn [fold_left]; auto.
  - now rewrite posting_swap.
  - now rewrite IH1.
Qed.

Lemma add_perm : forall x u u', Permutation u u' -> Permutation (set_add x u) (set_add x u').
Proof.
  intros x u u' P. unfold set_add. assert (existsb (str_eqb x) u = existsb (str_eqb x) u') as ->.
  { apply existsb_set. intro y. split; apply Permutation_in; [exact P|now symmetry]. }
  destruct (existsb _ u'); [exact P|now apply Permutation_app_tail].
Qed.
Lemma add_swap : forall x y u, Permutation (set_add x (set_add y u)) (set_add y (set_add x u)).
Proof.
  intros x y u. unfold set_add.
  destruct (existsb (str_eqb y) u) eqn:Y, (existsb (str_eqb x) u) eqn:X; rewrite ?X, ?Y; rewrite ?existsb_app, ?X, ?Y; cbn [orb existsb]; rewrite ?orb_false_r; try reflexivity.
  rewrite (str_eqb_sym y x). destruct (str_eqb x y) eqn:Q.
  - apply str_eqb_eq in Q. now subst.
  - rewrite <- !app_assoc. apply Permutation_app_head. cbn. constructor.
Qed.
Lemma accounts_order : forall ps ps', Permutation ps ps' -> forall u u', Permutation u u' ->
  Permutation (fold_left (fun u p => set_add (po_account p) u) ps u) (fold_left (fun u p => set_add (po_account p) u) ps' u').
Proof.
  assert (Same : forall l u u', Permutation u u' -> Permutation (fold_left (fun u p => set_add (po_account p) u) l u) (fold_left (fun u p => set_add (po_account p) u) l u')).
  { induction l as [|x l IH]; intros u u' P; cbn [fold_left]; [exact P|]. now apply IH, add_perm. }
  intros ps ps' P. induction P as [|x l l' _ IH|x y l|l l' l'' _ IH1 _ IH2]; intros u u' Q; cbn [fold_left]; auto.
  - apply IH, add_perm, Q.
  - apply Same. rewrite (add_perm (po_account x) _ _ (add_perm (po_account y) _ _ Q)). apply add_swap.
  - etransitivity; [apply IH1, Q|]. now apply IH2.
Qed.

(** ** Runs *)
Definition stats_alike (s s' : stats) : Prop :=
  s_first s = s_first s' /\ s_last s = s_last s' /\ s_count s = s_count s' /\ Permutation (s_accounts s) (s_accounts s') /\
  s_payees s = s_payees s' /\ s_files s = s_files s' /\ s_income s = s_income s' /\ s_expense s = s_expense s'.
Definition runs_alike (h h' : hstate stats) : Prop := h_n h = h_n h' /\ h_out h = h_out h' /\ stats_alike (h_data h) (h_data h').

Lemma step_alike : forall s s' t ps ps' p, stats_alike s s' -> Permutation ps ps' ->
  match stats_step s t ps p, stats_step s' t ps' p with
  | Some x, Some x' => stats_alike x x'
  | None, None => True
  | _, _ => False
  end.
Proof.
  intros s s' t ps ps' p (A1 & A2 & A3 & A4 & A5 & A6 & A7 & A8) P. unfold stats_step.
  rewrite (postings_order (t_date t) ps ps' P), A1, A2, A3, A5, A6, A7, A8. destruct (fold_left (stats_posting (t_date t)) ps' _) as [[inc exp]|]; [|exact I].
  repeat split. cbn. now apply accounts_order.
Qed.

Section Stats.
Variable E : env.
Variable O : opts.
Variable o : nat -> forall A, list A -> list A.
Variable o' : list str -> forall A, list A -> list A.
Let E' := with_orders E o o'.
Hypothesis Orders : orders E.
Hypothesis Orders' : orders E'.

Lemma ordered_pick : forall n (l : list posting) is, Permutation (pick l (e_order E n nat is)) (pick l (e_order E' n nat is)).
Proof. intros n l is. unfold pick. apply Permutation_flat_map. rewrite (proj1 Orders n nat is). symmetry. apply (proj1 Orders'). Qed.

Lemma alike_checked : forall fs s s' t p, runs_alike s s' ->
  snd (checked E O fs stats_handler s t p) = snd (checked E' O fs stats_handler s' t p) /\
  runs_alike (fst (checked E O fs stats_handler s t p)) (fst (checked E' O fs stats_handler s' t p)).
Proof.
  intros fs s s' t p (N & Q & D). unfold checked. rewrite <- N.
  assert (K : forall st : status, st = st /\ runs_alike (HS (S (h_n s)) (h_out s) (h_data s)) (HS (S (h_n s)) (h_out s') (h_data s'))).
  { intro st. split; [reflexivity|]. split; [reflexivity|]. split; [exact Q|exact D]. }
  assert (H : match checkAgainstFilters E O fs (h_n s) t, checkAgainstFilters E' O fs (h_n s) t with
    | POk (m, ps), POk (m', ps') => m = m' /\ Permutation ps ps' | PErr e, PErr e' => e = e' | PPanic, PPanic => True | _, _ => False end).
  { unfold checkAgainstFilters. change (withinDateRange E') with (withinDateRange E). change (match_filters E') with (match_filters E).
    destruct (withinDateRange E O (h_n s) t) as [[|]| |]; auto. destruct fs as [|f fs]; [auto|].
    destruct (match_filters E (f :: fs) t []); [|auto]. split; [reflexivity|apply ordered_pick]. }
  destruct (checkAgainstFilters E O fs (h_n s) t) as [[m ps]|e|], (checkAgainstFilters E' O fs (h_n s) t) as [[m' ps']|e'|]; try contradiction.
  - destruct H as [-> P]. assert (is_nil ps = is_nil ps') as ->.
    { destruct ps, ps'; try reflexivity; [apply Permutation_nil in P|apply Permutation_sym, Permutation_nil in P]; discriminate. }
    destruct (negb m' && is_nil ps'); [apply (K SOk)|]. unfold stats_handler. cbn [h_data h_n h_out].
    pose proof (step_alike _ _ t _ _ p D P) as X.
    destruct (stats_step (h_data s) t ps p), (stats_step (h_data s') t ps' p); try contradiction; [|apply (K SPanic)].
    split; [reflexivity|]. split; [reflexivity|]. split; [exact Q|exact X].
  - subst e'. apply (K (SErr e)).
  - apply (K SPanic).
Qed.

Lemma alike_runs : forall fs, snd (stats_run E O fs) = snd (stats_run E' O fs) /\ runs_alike (fst (stats_run E O fs)) (fst (stats_run E' O fs)).
Proof.
  intro fs. unfold stats_run, parse_cmd. cbn [E' with_orders e_ledger_file e_fs e_unicode e_depth].
  assert (Z : runs_alike (HS 0 [] newStats) (HS 0 [] newStats)) by (repeat split; constructor).
  destruct (match o_file O with [] => e_ledger_file E | z :: l => Some (z :: l) end) as [path|]; [|split; [reflexivity|exact Z]].
  destruct (e_fs E path) as [f|]; [|split; [reflexivity|exact Z]].
  pose proof (parse_agree (e_unicode E) (e_fs E) _ _ (Some (checked E O fs stats_handler)) None (Some (checked E' O fs stats_handler)) None
    runs_alike runs_alike (fun _ => False) (fun _ _ H => H)) as K.
  destruct (K) with (depth := e_depth E) (hint := path) (f := f) (s := HS 0 [] newStats) (h := HS 0 [] newStats) as [(A & B & _)|(_ & [])].
  - intros s h t p R. left. destruct (alike_checked fs s h t p R) as [A B]. cbn [run_t]. auto.
  - intros s h t p R. left. cbn. auto.
  - exact Z.
  - exact (conj A B).
Qed.

(** With whatever arguments: stats lists the files in the order of the map, the
    rest is the same, and so is the outcome. *)
Theorem C94_stats_filtered : exists head files files' tail, Permutation files files' /\
  r_out (stats_cmd E O) = head ++ files ++ tail /\ r_out (stats_cmd E' O) = head ++ files' ++ tail /\
  r_status (stats_cmd E' O) = r_status (stats_cmd E O).
Proof.
  unfold stats_cmd, with_filters. change (makeFilters E') with (makeFilters E). destruct (makeFilters E (o_args O)) as [fs|e|];
    try (exists [], [], [], []; repeat split; constructor).
  destruct (alike_runs fs) as [St (N & Q & D)]. destruct (stats_run E O fs) as [s r], (stats_run E' O fs) as [s' r']. cbn [fst snd] in *. subst r'.
  unfold finish. destruct r;
    try (exists (h_out s), [], [], []; rewrite ?app_nil_r, <- ?Q; repeat split; constructor).
  cbn [r_out r_status]. rewrite <- N, <- Q. destruct D as (A1 & A2 & A3 & A4 & A5 & A6 & A7 & A8). unfold stats_report, all_ages.
  rewrite <- A1, <- A2, <- A3, <- A5, <- A6, <- A7, <- A8, <- (Permutation_length A4). destruct (s_count (h_data s) =? 0).
  - exists (h_out s ++ [lit "No transactions matched arguments." ++ nl]), [], [], []. rewrite !app_nil_r. repeat split; try reflexivity; constructor.
  - eexists (h_out s ++ [_]), (map _ (e_order E (h_n s) _ (s_files (h_data s)))), (map _ (e_order E' (h_n s) _ (s_files (h_data s)))), _.
    split; [|split; [|split]]; [|rewrite <- app_assoc; reflexivity|rewrite <- app_assoc; reflexivity|reflexivity].
    apply Permutation_map. rewrite (proj1 Orders _ _ _). symmetry. apply (proj1 Orders').
Qed.
End Stats.

(** So neither does the order of the arguments matter to stats. *)
Theorem C114_stats : forall E O A B fs, orders E -> filters_for E A fs -> (forall a, In a A <-> In a B) ->
  exists head files files' tail, Permutation files files' /\
    r_out (stats_cmd E (with_args O A)) = head ++ files ++ tail /\ r_out (stats_cmd E (with_args O B)) = head ++ files' ++ tail /\
    r_status (stats_cmd E (with_args O B)) = r_status (stats_cmd E (with_args O A)).
Proof.
  intros E O A B fs Or F Same. destruct (C114_possible E O A B fs Or F Same) as (o & Or' & K). specialize (K Statistics ltac:(discriminate)). cbn [does] in K.
  destruct (C94_stats_filtered E (with_args O B) o (e_tree_order E) Or Or') as (h & f & f' & t & P & X & Y & Z). rewrite K in Y, Z.
  exists h, f', f, t. split; [now symmetry|]. split; [exact Y|]. split; [exact X|]. now symmetry.
Qed.

(** Two files, of which the postings to [x] and [z] are taken: with maps iterated
    backwards the files are listed the other way round. *)
Example C94_filtered_example : let E := env1 [(lit "j", lit "include k" ++ [10] ++ text_same); (lit "k", text_same)] in
  let O := opts3 [] [] false [lit "x"; lit "z"] in let E' := with_orders E (fun _ _ l => rev l) (fun _ _ l => rev l) in
  orders E /\ orders E' /\ (exists fs, filters_for E (o_args O) fs /\ length fs = 2%nat) /\
  r_status (stats_cmd E O) = SOk /\ length (r_out (stats_cmd E O)) = 10%nat /\ r_out (stats_cmd E' O) <> r_out (stats_cmd E O) /\
  nth 6 (r_out (stats_cmd E' O)) [] = lit "Transactions:" ++ [9; 9] ++ lit "4 (4.0 per day)" ++ [10].
Proof.
  cbn zeta. split; [apply env1_orders|]. split; [split; intros; symmetry; apply Permutation_rev|].
  split; [eexists; split; [apply makeFilters_spec; vm_compute; reflexivity|reflexivity]|].
  split; [vm_compute; reflexivity|]. split; [vm_compute; reflexivity|]. split; [vm_compute; discriminate|vm_compute; reflexivity].
Qed.
