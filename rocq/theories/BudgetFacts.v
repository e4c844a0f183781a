(** * The budget's trees *)
From Verif Require Import Base BaseFacts GoTime Strconv Journal Account Budget Spec JournalFacts TreeSpec TreeFacts ReportSpec BalanceFacts BudgetSpec.

Definition amt_at (q : list str) (t : account) : option amount := option_map a_amount (data_at q t).

Lemma amt_none : forall q t, amt_at q t = None <-> data_at q t = None.
Proof. intros. unfold amt_at. destruct (data_at q t); split; intro; try discriminate; auto. Qed.

Lemma data_root : forall t, data_at [] t = Some (acc_data t).
Proof. intros [d ch]. reflexivity. Qed.

Definition com_data (c : str) (d : adata) : adata := AD (a_name d) (a_path d) (Amount c (am_quantity (a_amount d))) (a_postings d).
Lemma set_commodity_data : forall c d ch, set_commodity c (Acc d ch) = Acc (com_data c d) ch.
Proof. reflexivity. Qed.

Lemma default_commodity_wf : forall c t, distinct t -> named t ->
  distinct (default_commodity c t) /\ named (default_commodity c t) /\ acc_name (default_commodity c t) = acc_name t /\
  (forall q, q <> [] -> data_at q (default_commodity c t) = data_at q t) /\
  (forall q, find_at q t <> None -> find_at q (default_commodity c t) <> None) /\
  am_quantity (acc_amount (default_commodity c t)) = am_quantity (acc_amount t) /\
  am_commodity (acc_amount (default_commodity c t)) = match am_commodity (acc_amount t) with [] => c | c' => c' end.
Proof.
  intros c [d ch] D N. unfold default_commodity, acc_amount. cbn [acc_data].
  assert (A : am_commodity (a_amount d) = [] \/ am_commodity (a_amount d) <> []) by (destruct (am_commodity (a_amount d)); [left|right]; congruence).
  destruct A as [A|A].
  - rewrite A. rewrite set_commodity_data. inversion D; subst. inversion N; subst. 
    split; [constructor; auto|]. split; [constructor; auto|]. split; [reflexivity|]. split; [|split; [|split; reflexivity]].
    + intros [|k q] H; [contradiction|]. now rewrite !data_at_cons.
    + intros [|k q] H; [discriminate|exact H].
  - destruct (am_commodity (a_amount d)) eqn:Q; [contradiction|]. split; [exact D|]. split; [exact N|].
    split; [reflexivity|]. split; [reflexivity|]. split; [auto|]. split; [reflexivity|exact Q].
Qed.

(** Making sure there is an account, and naming its commodity. *)
Lemma touch_spec : forall t comps c t0, distinct t -> named t -> comps <> [] -> findOrCreateAccount t comps = Some t0 ->
  let t1 := update_at comps (set_commodity c) (default_commodity c t0) in
  distinct t1 /\ named t1 /\ acc_name t1 = acc_name t /\ find_at comps t1 <> None /\
  acc_amount t1 = Amount (match am_commodity (acc_amount t) with [] => c | z => z end) (am_quantity (acc_amount t)) /\
  forall q, q <> [] -> amt_at q t1 =
    if prefixb q comps then
      let a := match amt_at q t with Some a => a | None => Amount [] 0 end in
      Some (if list_str_dec q comps then Amount c (am_quantity a) else a)
    else amt_at q t.
Proof.
  intros t comps c t0 D N Ne F t1.
  destruct (foc_wf _ _ _ D N F) as (D0 & N0 & A0). pose proof (foc_found _ _ _ D N F) as F0. pose proof (foc_data _ _ _ D N F) as Q0.
  destruct (default_commodity_wf c t0 D0 N0) as (D1 & N1 & A1 & Q1 & F1 & M1 & C1).
  destruct (update_data_at (com_data c) (set_commodity c) comps (default_commodity c t0)) as (D2 & N2 & A2 & Q2); auto.
  fold t1 in D2, N2, A2, Q2. split; [exact D2|]. split; [auto|]. split; [congruence|].
  assert (Q : forall q, q <> [] -> data_at q t1 = if prefixb q comps then
     let d := match data_at q t with Some d => d | None => AD (last q []) (createPath (last q []) (rev (removelast q) ++ [acc_name t])) (Amount [] 0) [] end in
     Some (if list_str_dec q comps then com_data c d else d) else data_at q t).
  { intros q Hq. rewrite Q2, Q1, Q0 by exact Hq. destruct (prefixb q comps) eqn:P.
    - destruct (data_at q t); destruct (list_str_dec q comps); reflexivity.
    - destruct (list_str_dec q comps) as [->|_]; [rewrite prefixb_refl in P; discriminate|]. destruct (data_at q t); reflexivity. }
  split; [|split].
  - rewrite <- data_at_none, Q by exact Ne. rewrite prefixb_refl. discriminate.
  - assert (X : data_at [] t1 = data_at [] (default_commodity c t0)).
    { rewrite Q2. destruct (list_str_dec [] comps); [congruence|reflexivity]. }
    assert (Y : acc_data t1 = acc_data (default_commodity c t0)) by (rewrite !data_root in X; congruence).
    specialize (Q0 []). assert (Z0 : acc_data t0 = acc_data t) by (rewrite !data_root in Q0; congruence).
    unfold acc_amount in *. rewrite Y, <- Z0, <- C1, <- M1. now destruct (a_amount (acc_data (default_commodity c t0))).
  - intros q Hq. unfold amt_at. rewrite Q by exact Hq. destruct (prefixb q comps); [|reflexivity].
    destruct (data_at q t); destruct (list_str_dec q comps); reflexivity.
Qed.

Lemma act_name : forall op am d, a_name (fst (act op am d)) = a_name d.
Proof. intros. unfold act. destruct (op (a_amount d) am). reflexivity. Qed.
Lemma act_amount : forall op am d, a_amount (fst (act op am d)) = fst (op (a_amount d) am).
Proof. intros. unfold act. destruct (op (a_amount d) am). reflexivity. Qed.

(** Adding a posting and its amount, to the account and all above it. *)
Lemma enter_spec : forall op am p t comps, distinct t -> named t -> find_at comps t <> None ->
  exists t' out, walkAncestors comps (act op am) (update_at comps (add_posting_here p) t) = Some (t', out) /\
    distinct t' /\ named t' /\ acc_name t' = acc_name t /\
    forall q, amt_at q t' = if prefixb q comps then option_map (fun a => fst (op a am)) (amt_at q t) else amt_at q t.
Proof.
  intros op am p t comps D N F.
  destruct (update_data_at (post p) (add_posting_here p) comps t) as (D2 & N2 & A2 & Q2); auto.
  destruct (walk_data (act op am) comps (update_at comps (add_posting_here p) t)) as (t' & out & W & D3 & N3 & A3 & Q3); auto.
  { intro. apply act_name. }
  { rewrite <- data_at_none, Q2. destruct (list_str_dec comps comps); [|contradiction]. rewrite <- data_at_none in F.
    destruct (data_at comps t); [discriminate|contradiction]. }
  exists t', out. split; [exact W|]. split; [exact D3|]. split; [auto|]. split; [congruence|].
  intro q. unfold amt_at. rewrite Q3, Q2. destruct (prefixb q comps).
  - destruct (list_str_dec q comps); destruct (data_at q t) as [d|]; cbn [option_map]; rewrite ?act_amount; reflexivity.
  - destruct (list_str_dec q comps); [|reflexivity]. destruct (data_at q t); reflexivity.
Qed.

(** ** A month *)

(** The accounts of the tree are the categories concerned, with the amounts [g]. *)
Definition tree_ok (g : list str -> Z) (ms : list move) (t : account) : Prop := forall q, q <> [] ->
  amt_at q t = if existsb (concerns q) ms then Some (Amount (shown_commodity q ms) (wrap64 (g q))) else None.

Record month_built (ms : list move) (bm : budgetMonth) : Prop := {
  mb_env_wf : distinct (bm_envelope bm) /\ named (bm_envelope bm);
  mb_exp_wf : distinct (bm_expense bm) /\ named (bm_expense bm);
  mb_env : tree_ok (fun q => assigned q ms) ms (bm_envelope bm);
  mb_exp : tree_ok (fun q => - spent q ms) ms (bm_expense bm);
  mb_env_root : acc_amount (bm_envelope bm) = Amount (envelope_commodity ms) (wrap64 (assigned [] ms + funded ms - earned ms));
  mb_exp_root : acc_amount (bm_expense bm) = Amount (spending_commodity ms) (wrap64 (- spent [] ms));
  mb_income : acc_amount (bm_income bm) = Amount (income_commodity ms) (wrap64 (- earned ms));
  mb_funds : acc_name (bm_income bm) = lit "Funds" }.

Lemma sum_of_app : forall f a b, sum_of f (a ++ b) = sum_of f a + sum_of f b.
Proof.
  intros. unfold sum_of, total, sumZ. rewrite filter_app, !map_app, fold_right_app.
  induction (map quantity (map mv_posting (filter f a))) as [|x l IH]; cbn; [lia|]. rewrite IH. lia.
Qed.
Lemma sum_of_one : forall f m am, po_amount (mv_posting m) = Some am -> sum_of f [m] = if f m then am_quantity am else 0.
Proof. intros f m am H. unfold sum_of. cbn [filter]. destruct (f m); [|reflexivity]. cbn. unfold total, sumZ, quantity. cbn. rewrite H. lia. Qed.

Lemma amt_root : forall t, amt_at [] t = Some (acc_amount t).
Proof. intros [d ch]. reflexivity. Qed.

Lemma shown_commodity_snoc : forall q ms m, shown_commodity q (ms ++ [m]) =
  if names q m then commodity_of (mv_posting m) else shown_commodity q ms.
Proof.
  intros. unfold shown_commodity. rewrite filter_app, map_app. cbn [filter]. destruct (names q m); cbn [map].
  - apply last_last.
  - now rewrite app_nil_r.
Qed.

Lemma unconcerned : forall q ms, existsb (concerns q) ms = false ->
  assigned q ms = 0 /\ spent q ms = 0 /\ shown_commodity q ms = [].
Proof.
  intros q ms H. induction ms as [|m ms IH] using rev_ind; [auto|]. rewrite existsb_app in H. apply orb_false_iff in H as [H1 H2].
  cbn in H2. rewrite orb_false_r in H2. destruct (IH H1) as (A & B & C).
  assert (Nn : names q m = false).
  { unfold concerns, names in *. destruct (negb (is_earn m) && negb (to_fund m)); [|reflexivity]. cbn [andb] in *.
    destruct (list_str_dec q (category m)) as [->|_]; [|reflexivity]. rewrite prefixb_refl in H2. discriminate. }
  unfold assigned, spent in *. rewrite !sum_of_app, A, B, shown_commodity_snoc, Nn, C. unfold sum_of. cbn [filter]. rewrite H2, !andb_false_r. auto.
Qed.

Lemma month_new : month_built [] newBudgetMonth.
Proof.
  assert (W : forall n, distinct (newAccount n) /\ named (newAccount n)).
  { intro n. split; constructor; [constructor|intros ? ? []|intros ? ? []]. }
  split; try apply W; try reflexivity.
  - intros [|k q] H; [contradiction|reflexivity].
  - intros [|k q] H; [contradiction|reflexivity].
Qed.

Lemma first_commodity_one : forall ps p am, po_amount p = Some am ->
  first_commodity (ps ++ [p]) = match first_commodity ps with [] => am_commodity am | c => c end.
Proof. intros ps p am H. rewrite first_commodity_snoc. unfold commodity_of. now rewrite H. Qed.

(** A move that is not to the fund and not income. *)
Definition ordinary (m : move) : Prop := is_earn m = false /\ to_fund m = false.
Lemma concerns_ordinary : forall m q, ordinary m -> concerns q m = prefixb q (category m).
Proof. intros m q [A B]. unfold concerns. now rewrite A, B. Qed.
Lemma names_ordinary : forall m q, ordinary m -> names q m = if list_str_dec q (category m) then true else false.
Proof. intros m q [A B]. unfold names. now rewrite A, B. Qed.

Lemma existsb_snoc : forall A (f : A -> bool) l x, existsb f (l ++ [x]) = existsb f l || f x.
Proof. intros. rewrite existsb_app. cbn. now rewrite orb_false_r. Qed.

(** Touching the category of a move in a tree. *)
Lemma touch_built : forall g ms m t t0 am, (forall q, existsb (concerns q) ms = false -> g q = 0) ->
  po_amount (mv_posting m) = Some am -> ordinary m -> category m <> [] ->
  distinct t -> named t -> tree_ok g ms t -> findOrCreateAccount t (category m) = Some t0 ->
  let t1 := update_at (category m) (set_commodity (am_commodity am)) (default_commodity (am_commodity am) t0) in
  distinct t1 /\ named t1 /\ acc_name t1 = acc_name t /\ find_at (category m) t1 <> None /\
  acc_amount t1 = Amount (match am_commodity (acc_amount t) with [] => am_commodity am | z => z end) (am_quantity (acc_amount t)) /\
  tree_ok g (ms ++ [m]) t1.
Proof.
  intros g ms m t t0 am G A Or Ne D N T F t1. destruct (touch_spec t (category m) (am_commodity am) t0 D N Ne F) as (D1 & N1 & A1 & F1 & M1 & Q1).
  fold t1 in D1, N1, A1, F1, M1, Q1. repeat (split; [assumption|]). intros q Hq. rewrite Q1 by exact Hq. rewrite (T q Hq).
  rewrite existsb_snoc, shown_commodity_snoc, concerns_ordinary, names_ordinary by exact Or.
  unfold commodity_of. rewrite A. destruct (prefixb q (category m)) eqn:P.
  - rewrite orb_true_r. destruct (existsb (concerns q) ms) eqn:X; cbn zeta.
    + destruct (list_str_dec q (category m)); reflexivity.
    + destruct (unconcerned _ _ X) as (_ & _ & S). rewrite (G q X), S. destruct (list_str_dec q (category m)); reflexivity.
  - rewrite orb_false_r. destruct (list_str_dec q (category m)) as [->|_]; [rewrite prefixb_refl in P; discriminate|]. reflexivity.
Qed.

Lemma enter_built : forall g g' ms op m t am p, (forall a, fst (op a am) = Amount (am_commodity a) (am_quantity (fst (op a am)))) ->
  ordinary m -> category m <> [] -> distinct t -> named t -> find_at (category m) t <> None -> tree_ok g (ms ++ [m]) t ->
  (forall q c, prefixb q (category m) = true -> am_quantity (fst (op (Amount c (wrap64 (g q))) am)) = wrap64 (g' q)) ->
  (forall q, prefixb q (category m) = false -> g' q = g q) ->
  exists t' out, walkAncestors (category m) (act op am) (update_at (category m) (add_posting_here p) t) = Some (t', out) /\
    distinct t' /\ named t' /\ acc_name t' = acc_name t /\ tree_ok g' (ms ++ [m]) t' /\ acc_amount t' = fst (op (acc_amount t) am) /\
    out = flat_map (fun q => snd (op (match q with [] => acc_amount t | _ => Amount (shown_commodity q (ms ++ [m])) (wrap64 (g q)) end) am)) (up (category m)).
Proof.
  intros g g' ms op m t am p Ho Or Ne D N F T G1 G2. destruct (enter_spec op am p t (category m) D N F) as (t' & out & W & D' & N' & A' & Q).
  exists t', out. repeat (split; [assumption|]). split.
  - intros q Hq. rewrite Q, (T q Hq). destruct (prefixb q (category m)) eqn:P.
    + rewrite existsb_snoc, concerns_ordinary, P, orb_true_r by exact Or. cbn [option_map]. rewrite Ho, G1 by exact P. reflexivity.
    + rewrite G2 by exact P. reflexivity.
  - split; [specialize (Q []); rewrite !amt_root in Q; cbn in Q; congruence|].
    rewrite (walk_out _ _ _ _ _ W).
    destruct (update_data_at (post p) (add_posting_here p) (category m) t) as (_ & _ & _ & Q2); auto.
    assert (X : forall l, (forall q, In q l -> prefixb q (category m) = true) ->
      flat_map (fun q => match data_at q (update_at (category m) (add_posting_here p) t) with Some d => snd (act op am d) | None => [] end) l =
      flat_map (fun q => snd (op (match q with [] => acc_amount t | _ => Amount (shown_commodity q (ms ++ [m])) (wrap64 (g q)) end) am)) l).
    { induction l as [|q l IH]; intro H; [reflexivity|]. cbn [flat_map]. rewrite IH by (intros; apply H; now right). f_equal.
      assert (K : forall d, snd (act op am d) = snd (op (a_amount d) am)) by (intro d; unfold act; now destruct (op (a_amount d) am)).
      assert (Y : amt_at q (update_at (category m) (add_posting_here p) t) = amt_at q t).
      { unfold amt_at. rewrite Q2. destruct (list_str_dec q (category m)); [|reflexivity]. now destruct (data_at q t). }
      assert (Z : amt_at q t = Some (match q with [] => acc_amount t | _ => Amount (shown_commodity q (ms ++ [m])) (wrap64 (g q)) end)).
      { destruct q as [|k q]; [apply amt_root|]. rewrite T by discriminate.
        rewrite existsb_snoc, concerns_ordinary, (H (k :: q)), orb_true_r by (try exact Or; now left). reflexivity. }
      rewrite Z in Y. unfold amt_at in Y. destruct (data_at q (update_at (category m) (add_posting_here p) t)) as [d|]; [|discriminate].
      cbn in Y. injection Y as <-. apply K. }
    apply X. intros q I. apply prefixb_iff. now apply up_prefix.
Qed.

Lemma set_amount_spec : forall a t, distinct t -> named t ->
  distinct (set_amount a t) /\ named (set_amount a t) /\ acc_name (set_amount a t) = acc_name t /\ acc_amount (set_amount a t) = a /\
  forall q, q <> [] -> amt_at q (set_amount a t) = amt_at q t.
Proof.
  intros a [d ch] D N. inversion D; subst. inversion N; subst. split; [constructor; auto|]. split; [constructor; auto|]. split; [reflexivity|].
  split; [reflexivity|]. intros [|k q] H; [contradiction|]. unfold amt_at. cbn [set_amount]. now rewrite !data_at_cons.
Qed.

(** A move with no bearing on the categories. *)
Lemma tree_ok_apart : forall g g' ms m t t', is_earn m || to_fund m = true -> (forall q, g' q = g q) ->
  (forall q, q <> [] -> amt_at q t' = amt_at q t) -> tree_ok g ms t -> tree_ok g' (ms ++ [m]) t'.
Proof.
  intros g g' ms m t t' H G Q T q Hq. rewrite (Q q Hq), (T q Hq). rewrite existsb_snoc, shown_commodity_snoc, G.
  assert (C : concerns q m = false /\ names q m = false).
  { unfold concerns, names. destruct (is_earn m), (to_fund m); try discriminate; auto. }
  destruct C as [-> ->]. now rewrite orb_false_r.
Qed.

Lemma assigned_snoc : forall q ms m am, po_amount (mv_posting m) = Some am ->
  assigned q (ms ++ [m]) = assigned q ms + if is_assign m && concerns q m then am_quantity am else 0.
Proof. intros. unfold assigned. now rewrite sum_of_app, (sum_of_one _ m am). Qed.
Lemma spent_snoc : forall q ms m am, po_amount (mv_posting m) = Some am ->
  spent q (ms ++ [m]) = spent q ms + if is_spend m && concerns q m then am_quantity am else 0.
Proof. intros. unfold spent. now rewrite sum_of_app, (sum_of_one _ m am). Qed.
Lemma earned_snoc : forall ms m am, po_amount (mv_posting m) = Some am ->
  earned (ms ++ [m]) = earned ms + if is_earn m then am_quantity am else 0.
Proof. intros. unfold earned. now rewrite sum_of_app, (sum_of_one _ m am). Qed.
Lemma funded_snoc : forall ms m am, po_amount (mv_posting m) = Some am ->
  funded (ms ++ [m]) = funded ms + if to_fund m then am_quantity am else 0.
Proof. intros. unfold funded. now rewrite sum_of_app, (sum_of_one _ m am). Qed.

Lemma set_amount_amount : forall a t, acc_amount (set_amount a t) = a.
Proof. intros a [d ch]. reflexivity. Qed.
Lemma income_amount : forall p c t, acc_amount (add_posting_here p (default_commodity c t)) =
  Amount (match am_commodity (acc_amount t) with [] => c | z => z end) (am_quantity (acc_amount t)).
Proof.
  intros p c [[n pa [co q] ps] ch]. unfold default_commodity, acc_amount, set_commodity, acc_amount. cbn. destruct co; reflexivity.
Qed.

Lemma income_name : forall a p c t, acc_name (set_amount a (add_posting_here p (default_commodity c t))) = acc_name t.
Proof.
  intros a p c [[n pa [co q] ps] ch]. unfold default_commodity, acc_amount, set_commodity, acc_amount. cbn. destruct co; reflexivity.
Qed.

Lemma mismatch_objection : forall verb a b, mismatch verb a b = objection verb (am_commodity a) (am_commodity b).
Proof. reflexivity. Qed.

Lemma envelope_commodity_snoc : forall ms m am, po_amount (mv_posting m) = Some am -> envelope_commodity (ms ++ [m]) =
  if to_fund m then envelope_commodity ms else match envelope_commodity ms with [] => am_commodity am | z => z end.
Proof.
  intros ms m am A. unfold envelope_commodity. rewrite filter_app, map_app. cbn [filter]. destruct (to_fund m); cbn [negb map].
  - now rewrite app_nil_r.
  - now apply first_commodity_one.
Qed.
Lemma spending_commodity_snoc : forall ms m am, po_amount (mv_posting m) = Some am -> spending_commodity (ms ++ [m]) =
  if to_fund m || is_earn m then spending_commodity ms else match spending_commodity ms with [] => am_commodity am | z => z end.
Proof.
  intros ms m am A. unfold spending_commodity. rewrite filter_app, map_app. cbn [filter]. destruct (to_fund m), (is_earn m); cbn [negb map andb orb];
  try now rewrite app_nil_r. now apply first_commodity_one.
Qed.
Lemma income_commodity_snoc : forall ms m am, po_amount (mv_posting m) = Some am -> income_commodity (ms ++ [m]) =
  if is_earn m then match income_commodity ms with [] => am_commodity am | z => z end else income_commodity ms.
Proof.
  intros ms m am A. unfold income_commodity. rewrite filter_app, map_app. cbn [filter]. destruct (is_earn m); cbn [map].
  - now apply first_commodity_one.
  - now rewrite app_nil_r.
Qed.

(** One posting more. *)
Lemma income_step : forall b k d p ms b' out, month_built ms (month_of b k) -> b_addIncome b k p = Some (b', out) ->
  exists bm, b' = assoc_set date_eqb k bm b /\ month_built (ms ++ [Move IncomePosting d p]) bm /\ out = objections ms (Move IncomePosting d p).
Proof.
  intros b k d p ms b' out [[De Ne] [Dx Nx] Te Tx Re Rx Ri Fi] H. unfold b_addIncome in H. destruct (po_amount p) as [am|] eqn:A; [|discriminate].
  set (m := Move IncomePosting d p). assert (Am : po_amount (mv_posting m) = Some am) by exact A.
  destruct (default_commodity_wf (am_commodity am) _ De Ne) as (D1 & N1 & A1 & Q1 & _ & M1 & C1).
  assert (E1 : acc_amount (default_commodity (am_commodity am) (bm_envelope (month_of b k))) =
    Amount (envelope_commodity (ms ++ [m])) (wrap64 (assigned [] ms + funded ms - earned ms))).
  { rewrite Re in C1, M1. cbn [am_commodity am_quantity] in C1, M1. rewrite (envelope_commodity_snoc _ _ am Am). change (to_fund m) with false. cbn iota.
    rewrite <- C1, <- M1. now destruct (acc_amount (default_commodity (am_commodity am) (bm_envelope (month_of b k)))). }
  unfold amount_sub in H. inversion H; subst b' out. clear H. eexists. split; [reflexivity|]. cbn [bm_envelope bm_expense bm_income] in *.
  match goal with |- context [set_amount ?a (default_commodity (am_commodity am) (bm_envelope ?bm))] =>
    destruct (set_amount_spec a _ D1 N1) as (D2 & N2 & A2 & M2 & Q2) end.
  assert (Ic : income_commodity (ms ++ [m]) = match income_commodity ms with [] => am_commodity am | z => z end)
    by exact (income_commodity_snoc _ _ am Am).
  split; [split; cbn [bm_envelope bm_expense bm_income]|].
  - auto.
  - auto.
  - apply (tree_ok_apart (fun q => assigned q ms) _ ms m (bm_envelope (month_of b k))); auto.
    + intro q. rewrite (assigned_snoc _ _ _ am Am). cbn. lia.
    + intros q Hq. rewrite Q2 by exact Hq. unfold amt_at. now rewrite Q1.
  - apply (tree_ok_apart (fun q => - spent q ms) _ ms m (bm_expense (month_of b k))); auto.
    intro q. rewrite (spent_snoc _ _ _ am Am). cbn. lia.
  - rewrite M2. rewrite E1. cbn [am_quantity am_commodity]. rewrite wrap64_sub_l. f_equal. f_equal.
    rewrite (assigned_snoc _ _ _ am Am), (earned_snoc _ _ am Am), (funded_snoc _ _ am Am). cbn. lia.
  - rewrite Rx, (spent_snoc _ _ _ am Am), (spending_commodity_snoc _ _ am Am). cbn. f_equal. f_equal. lia.
  - rewrite (earned_snoc _ _ am Am), Ic. change (is_earn m) with true. cbn iota.
    rewrite set_amount_amount, income_amount, Ri. cbn [am_commodity am_quantity].
    rewrite wrap64_sub_l. f_equal. f_equal. lia.
  - rewrite income_name. exact Fi.
  - unfold objections. change (is_earn m) with true. cbn iota. rewrite !mismatch_objection, E1, income_amount, Ri, Ic.
    unfold commodity_of. rewrite Am. reflexivity.
Qed.

Lemma entry_step : forall b k d p pt ms b' out, pt <> IncomePosting -> month_built ms (month_of b k) -> b_addEntry b k p pt = Some (b', out) ->
  exists bm, b' = assoc_set date_eqb k bm b /\ month_built (ms ++ [Move pt d p]) bm /\ out = objections ms (Move pt d p).
Proof.
  intros b k d p pt ms b' out NI [[De Ne] [Dx Nx] Te Tx Re Rx Ri Fi] H. unfold b_addEntry in H. destruct (po_amount p) as [am|] eqn:A; [|discriminate].
  set (m := Move pt d p) in *. assert (Am : po_amount (mv_posting m) = Some am) by exact A.
  assert (Co : commodity_of (mv_posting m) = am_commodity am) by (unfold commodity_of; now rewrite Am).
  assert (Ge : forall q, existsb (concerns q) ms = false -> assigned q ms = 0) by (intros q X; now apply unconcerned in X).
  assert (Gx : forall q, existsb (concerns q) ms = false -> - spent q ms = 0) by (intros q X; apply unconcerned in X as (_ & -> & _); lia).
  assert (IE : is_earn m = false) by (destruct pt; try contradiction; reflexivity).
  assert (SE : match pt with ExpensePosting => true | _ => false end = is_spend m) by (destruct pt; reflexivity).
  assert (AS : is_assign m = negb (is_spend m)) by (destruct pt; try contradiction; reflexivity).
  pose proof (envelope_commodity_snoc ms m am Am) as Ec. pose proof (spending_commodity_snoc ms m am Am) as Sc.
  pose proof (income_commodity_snoc ms m am Am) as Ic. rewrite IE in Ic, Sc. rewrite orb_false_r in Sc.
  cbv zeta in H. rewrite SE in H. destruct (negb (is_spend m) && str_eqb (po_account p) BudgetRootID) eqn:Fd.
  - assert (TF : to_fund m = true) by (unfold to_fund; rewrite AS; exact Fd). rewrite TF in Ec, Sc.
    unfold amount_add in H. inversion H; subst b' out. eexists. split; [reflexivity|].
    match goal with |- context [set_amount ?a (bm_envelope ?bm)] => destruct (set_amount_spec a _ De Ne) as (D2 & N2 & A2 & M2 & Q2) end.
    assert (Cn : forall q, concerns q m = false) by (intro q; unfold concerns; rewrite TF, andb_false_r; reflexivity).
    split; [split; cbn [bm_envelope bm_expense bm_income]|].
    + auto.
    + auto.
    + apply (tree_ok_apart (fun q => assigned q ms) _ ms m (bm_envelope (month_of b k))); auto.
      * now rewrite TF, orb_true_r.
      * intro q. rewrite (assigned_snoc _ _ _ am Am), Cn, andb_false_r. lia.
    + apply (tree_ok_apart (fun q => - spent q ms) _ ms m (bm_expense (month_of b k))); auto.
      * now rewrite TF, orb_true_r.
      * intro q. rewrite (spent_snoc _ _ _ am Am), Cn, andb_false_r. lia.
    + rewrite M2, Re, Ec. cbn [am_quantity am_commodity]. rewrite wrap64_add_l. f_equal. f_equal.
      rewrite (assigned_snoc _ _ _ am Am), (earned_snoc _ _ am Am), (funded_snoc _ _ am Am), IE, TF, Cn, andb_false_r. lia.
    + rewrite Rx, Sc, (spent_snoc _ _ _ am Am), Cn, andb_false_r. f_equal. f_equal. lia.
    + rewrite Ri, Ic, (earned_snoc _ _ am Am), IE. do 2 f_equal. lia.
    + exact Fi.
    + unfold objections. rewrite IE, TF, mismatch_objection, Re, Co. reflexivity.
  - assert (Or : ordinary m).
    { split; [exact IE|]. unfold to_fund. rewrite AS. exact Fd. }
    change (split colon (po_account p)) with (components p) in H.
    assert (Cm : (if is_spend m then tl (components p) else components p) = category m) by reflexivity. rewrite Cm in H. clear Cm.
    destruct (findOrCreateAccount (bm_envelope (month_of b k)) (category m)) as [env0|] eqn:Fe; [|discriminate].
    destruct (findOrCreateAccount (bm_expense (month_of b k)) (category m)) as [exp0|] eqn:Fx; [|discriminate].
    assert (Nc : category m <> []) by (intro X; rewrite X in Fe; discriminate).
    destruct (touch_built _ _ m _ _ am Ge Am Or Nc De Ne Te Fe) as (De1 & Ne1 & Ae1 & Fe1 & Me1 & Te1).
    destruct (touch_built _ _ m _ _ am Gx Am Or Nc Dx Nx Tx Fx) as (Dx1 & Nx1 & Ax1 & Fx1 & Mx1 & Tx1).
    assert (Cn : forall q, concerns q m = prefixb q (category m)) by (intro; now apply concerns_ordinary).
    assert (TF : to_fund m = false) by apply Or. rewrite TF in Ec, Sc.
    rewrite Re in Me1. rewrite Rx in Mx1. cbn [am_commodity am_quantity] in Me1, Mx1. rewrite <- Ec in Me1. rewrite <- Sc in Mx1.
    cbv zeta in H. destruct (is_spend m) eqn:Sp; cbn [negb] in AS.
    + destruct (enter_built (fun q => - spent q ms) (fun q => - spent q (ms ++ [m])) ms amount_sub m (update_at (category m) (set_commodity (am_commodity am)) (default_commodity (am_commodity am) exp0)) am p)
        as (t' & o & W & D' & N' & A' & T' & R' & O'); auto.
      { intros q c P. cbn. rewrite wrap64_sub_l, (spent_snoc _ _ _ am Am), Sp, Cn, P. cbn. f_equal. lia. }
      { intros q P. rewrite (spent_snoc _ _ _ am Am), Cn, P, andb_false_r. lia. }
      rewrite W in H. inversion H; subst b' out. eexists. split; [reflexivity|]. split; [split; cbn [bm_envelope bm_expense bm_income]; auto|].
      * intros q Hq. rewrite (Te1 q Hq), (assigned_snoc _ _ _ am Am), AS. cbn [andb]. now rewrite Z.add_0_r.
      * rewrite Me1. f_equal. f_equal. rewrite (assigned_snoc _ _ _ am Am), (earned_snoc _ _ am Am), (funded_snoc _ _ am Am), IE, TF, AS. cbn [andb]. lia.
      * rewrite R', Mx1. cbn [amount_sub fst am_quantity am_commodity]. rewrite wrap64_sub_l, (spent_snoc _ _ _ am Am), Sp, Cn. cbn. f_equal. f_equal. lia.
      * rewrite Ri, Ic, (earned_snoc _ _ am Am), IE. do 2 f_equal. lia.
      * rewrite O', Mx1. unfold objections. rewrite IE, TF, Sp, Co. apply flat_map_ext. intros [|x q]; reflexivity.
    + destruct (enter_built (fun q => assigned q ms) (fun q => assigned q (ms ++ [m])) ms amount_add m (update_at (category m) (set_commodity (am_commodity am)) (default_commodity (am_commodity am) env0)) am p)
        as (t' & o & W & D' & N' & A' & T' & R' & O'); auto.
      { intros q c P. cbn. rewrite wrap64_add_l, (assigned_snoc _ _ _ am Am), AS, Cn, P. cbn. f_equal. }
      { intros q P. rewrite (assigned_snoc _ _ _ am Am), Cn, P, andb_false_r. lia. }
      rewrite W in H. inversion H; subst b' out. eexists. split; [reflexivity|]. split; [split; cbn [bm_envelope bm_expense bm_income]; auto|].
      * intros q Hq. rewrite (Tx1 q Hq), (spent_snoc _ _ _ am Am), Sp. cbn [andb]. now rewrite Z.add_0_r.
      * rewrite R', Me1. cbn [amount_add fst am_quantity am_commodity]. rewrite wrap64_add_l. f_equal. f_equal.
        rewrite (assigned_snoc _ _ _ am Am), (earned_snoc _ _ am Am), (funded_snoc _ _ am Am), IE, TF, AS, Cn. cbn. lia.
      * rewrite Mx1, (spent_snoc _ _ _ am Am), Sp. cbn [andb]. f_equal. f_equal. lia.
      * rewrite Ri, Ic, (earned_snoc _ _ am Am), IE. do 2 f_equal. lia.
      * rewrite O', Me1. unfold objections. rewrite IE, TF, Sp, Co. apply flat_map_ext. intros [|x q]; reflexivity.
Qed.

(** When it goes through: an amount, and for spending a category. *)
Definition enterable (pt : postingType) (p : posting) : Prop :=
  po_amount p <> None /\ (pt = ExpensePosting -> tl (components p) <> []).
Lemma add_total : forall b d p pt ms, enterable pt p -> month_built ms (month_of b (normaliseToMonth d)) ->
  exists b' out, b_addPosting b d p pt = Some (b', out).
Proof.
  intros b d p pt ms [A S] M. destruct (po_amount p) as [am|] eqn:Am; [|contradiction]. clear A.
  destruct M as [[De Ne] [Dx Nx] Te Tx _ _ _ _]. unfold b_addPosting, b_addIncome, b_addEntry. rewrite Am.
  assert (K : forall comps pt', comps <> [] -> pt' <> IncomePosting ->
    exists r, match findOrCreateAccount (bm_envelope (month_of b (normaliseToMonth d))) comps, findOrCreateAccount (bm_expense (month_of b (normaliseToMonth d))) comps with
        | Some env0, Some exp0 =>
            let c := am_commodity am in
            let env1 := update_at comps (set_commodity c) (default_commodity c env0) in
            let exp1 := update_at comps (set_commodity c) (default_commodity c exp0) in
            if match pt' with ExpensePosting => true | _ => false end then
              match walkAncestors comps (act amount_sub am) (update_at comps (add_posting_here p) exp1) with
              | Some (exp2, out) => Some (assoc_set date_eqb (normaliseToMonth d) (BM env1 exp2 (bm_income (month_of b (normaliseToMonth d)))) b, out)
              | None => None
              end
            else
              match walkAncestors comps (act amount_add am) (update_at comps (add_posting_here p) env1) with
              | Some (env2, out) => Some (assoc_set date_eqb (normaliseToMonth d) (BM env2 exp1 (bm_income (month_of b (normaliseToMonth d)))) b, out)
              | None => None
              end
        | _, _ => None
        end = Some r).
  { intros comps pt' Nc NI. destruct (foc_total (bm_envelope (month_of b (normaliseToMonth d))) comps Nc) as [e0 Fe]. rewrite Fe.
    destruct (foc_total (bm_expense (month_of b (normaliseToMonth d))) comps Nc) as [x0 Fx]. rewrite Fx. cbv zeta.
    destruct (touch_spec _ comps (am_commodity am) e0 De Ne Nc Fe) as (De1 & Ne1 & _ & Fe1 & _).
    destruct (touch_spec _ comps (am_commodity am) x0 Dx Nx Nc Fx) as (Dx1 & Nx1 & _ & Fx1 & _).
    destruct pt'; try contradiction.
    - destruct (enter_spec amount_add am p _ comps De1 Ne1 Fe1) as (t' & o & W & _). rewrite W. eauto.
    - destruct (enter_spec amount_sub am p _ comps Dx1 Nx1 Fx1) as (t' & o & W & _). rewrite W. eauto. }
  destruct pt.
  - cbv zeta. cbn [negb andb]. destruct (str_eqb (po_account p) BudgetRootID).
    + unfold amount_add. eauto.
    + destruct (K (split colon (po_account p)) EnvelopePosting) as [[b' o] Q]; [apply split_nonempty|discriminate|]. exists b', o; exact Q.
  - cbv zeta. cbn [negb andb]. destruct (K (tl (split colon (po_account p))) ExpensePosting) as [[b' o] Q]; [apply S; reflexivity|discriminate|]. exists b', o; exact Q.
  - cbv zeta. unfold amount_sub. eauto.
Qed.

Lemma add_enterable : forall b d p pt b' out, b_addPosting b d p pt = Some (b', out) -> enterable pt p.
Proof.
  intros b d p pt b' out H. unfold b_addPosting, b_addIncome, b_addEntry in H. destruct pt.
  - split; [|discriminate]. destruct (po_amount p); [discriminate|discriminate H].
  - destruct (po_amount p) eqn:A; [|discriminate H]. split; [rewrite A; discriminate|]. intros _ X. unfold components in X. cbn [negb andb] in H. cbv zeta in H.
    change colon with 58 in H. rewrite X in H. discriminate H.
  - split; [|discriminate]. destruct (po_amount p); [discriminate|discriminate H].
Qed.
