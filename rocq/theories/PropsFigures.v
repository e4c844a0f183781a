(** * C26: what iteration order cannot change *)
From Verif Require Import Base BaseFacts Utf8 Unicode GoTime Strconv Display Journal Lexer Parser ParserFacts Account Reporting Cmd Spec TextSpec
    JournalText TreeSpec TreeFacts ReportSpec ReportFacts CollapseFacts CmdSpec CmdFacts BalanceFacts FlatSpec Sample PropsParser PropsCmd PropsBalance PropsPrint PropsReread
  PropsAgain PropsWhere PropsConcat PropsJoin PropsOrder PropsApart.

(** A row of a report: the account, its quantity and what is written after it. *)
Definition row : Type := list str * Z * str.
Definition account_of (r : row) : list str := fst (fst r).

(** A report on the postings [ps] with the rows [rows] and the total [t]: only the
    complaints and the commodities are not given by the rows and the total. *)
Definition reported (ps : list posting) (rows : list row) (t : Z) : list str :=
  complaints [] ps ++
  [unlines (map (fun r => column (first_commodity (filter (below (account_of r)) ps)) (snd (fst r)) ++ [32; 32] ++ snd r) rows) ++ [10];
   lit "--------------------" ++ [10];
   column [] t ++ [10]].

(** The rows for [ps], by form of report. *)
Definition entry (O : opts) (ps : list posting) (r : row) : Prop :=
  let q := account_of r in let sh := shown (o_show_zero O) ps in
  snd (fst r) = wrap64 (total (filter (below q) ps)) /\
  if o_flatten O then (q = [] \/ sh q) /\ (forall k, ~ sh (q ++ [k])) /\ snd r = join [58] (visible q)
  else if o_collapse O then exists n names, q <> [] /\ sh q /\ ~ alone sh q /\ folded (alone sh) q n names /\ snd r = rep (2 * n) 32 ++ join [58] names
  else q <> [] /\ sh q /\ snd r = rep (2 * (length q - 1)) 32 ++ last q (lit "_root_").

Definition listed (rows : list row) : Prop := StronglySorted path_lt (map account_of rows).

Lemma one_report : forall E O fs, sane_clock E -> orders E -> filters_for E (o_args O) fs -> r_status (balance_cmd E O) = SOk ->
  exists sel rows, picks E O fs (txns 0 (fst (stream E O))) sel /\ listed rows /\ (forall r, In r rows <-> entry O (taken sel) r) /\
    r_out (balance_cmd E O) = reported (taken sel) rows (wrap64 (total (taken sel))).
Proof.
  intros E O fs C Or F Ok. unfold entry. destruct (o_flatten O) eqn:Ff; [|destruct (o_collapse O) eqn:Fc].
  - destruct (C61_flat E O fs C Or F Ff Ok) as (sel & rows & P & So & I & Q).
    exists sel, (map (fun r => (fst r, wrap64 (total (filter (below (fst r)) (taken sel))), join [58] (visible (fst r)))) rows).
    split; [exact P|]. split; [unfold listed; rewrite map_map; exact So|]. split.
    + intros [[q x] s]. unfold account_of. cbn [fst snd]. rewrite in_map_iff. split.
      * intros ([q0 d] & Er & Iq). injection Er as <- <- <-. apply I in Iq as (S & _ & L). auto.
      * intros (-> & S & L & ->). destruct (holds_some (taken sel) q) as [d Hd]. exists (q, d). split; [reflexivity|]. apply I. auto.
    + rewrite Q. unfold reported. rewrite map_map. reflexivity.
  - destruct (C61_collapsed E O fs C Or F Ff Fc Ok) as (sel & rows & P & So & I & Q).
    exists sel, (map (fun r => (fst r, wrap64 (total (filter (below (fst r)) (taken sel))), rep (2 * fst (snd r)) 32 ++ join [58] (snd (snd r)))) rows).
    split; [exact P|]. split; [unfold listed; rewrite map_map; exact So|]. split.
    + intros [[q x] s]. unfold account_of. cbn [fst snd]. rewrite in_map_iff. split.
      * intros ([q0 [n names]] & Er & Iq). injection Er as <- <- <-. apply I in Iq as (N & S & L & Fo). split; [reflexivity|]. exists n, names. auto.
      * intros (-> & n & names & N & S & L & Fo & ->). exists (q, (n, names)). split; [reflexivity|]. apply I. auto.
    + rewrite Q. unfold reported. rewrite map_map. reflexivity.
  - destruct (C61_rows E O fs C Or F Ff Fc Ok) as (sel & rows & P & So & I & Q).
    exists sel, (map (fun r => (fst r, wrap64 (total (filter (below (fst r)) (taken sel))), rep (2 * (length (fst r) - 1)) 32 ++ last (fst r) (lit "_root_"))) rows).
    split; [exact P|]. split; [unfold listed; rewrite map_map; exact So|]. split.
    + intros [[q x] s]. unfold account_of. cbn [fst snd]. rewrite in_map_iff. split.
      * intros ([q0 d] & Er & Iq). injection Er as <- <- <-. apply I in Iq as (N & S & _). auto.
      * intros (-> & N & S & ->). destruct (holds_some (taken sel) q) as [d Hd]. exists (q, d). split; [reflexivity|]. apply I. auto.
    + rewrite Q. unfold reported. rewrite map_map. reflexivity.
Qed.

Lemma shown_same : forall z ps ps' q, Permutation (map plainly ps) (map plainly ps') -> (shown z ps q <-> shown z ps' q).
Proof.
  intros z ps ps' q P. split; intro H; apply shown_plainly; [eapply shown_perm; [exact P|]|eapply shown_perm; [symmetry; exact P|]]; now apply shown_plainly.
Qed.
Lemma total_same : forall ps ps' q, Permutation (map plainly ps) (map plainly ps') -> total (filter (below q) ps) = total (filter (below q) ps').
Proof.
  intros ps ps' q P. rewrite <- (total_plainly (filter (below q) ps)), <- (total_plainly (filter (below q) ps')), <- (filter_plainly q ps), <- (filter_plainly q ps').
  apply total_perm. now apply TreeFacts.filter_perm.
Qed.

Lemma alone_same : forall (sh sh' : list str -> Prop) q, (forall r, sh r <-> sh' r) -> (alone sh q <-> alone sh' q).
Proof. intros sh sh' q H. unfold alone. split; intros [k K]; exists k; intro k'; rewrite <- K, H; reflexivity. Qed.

Lemma entry_same : forall O O' ps ps' r, o_flatten O' = o_flatten O -> o_collapse O' = o_collapse O -> o_show_zero O' = o_show_zero O ->
  Permutation (map plainly ps) (map plainly ps') -> entry O ps r -> entry O' ps' r.
Proof.
  intros O O' ps ps' r Hf Hc Hz P [X Y]. unfold entry. rewrite Hf, Hc, Hz.
  assert (S : forall q, shown (o_show_zero O) ps q <-> shown (o_show_zero O) ps' q) by (intro q; now apply shown_same).
  split; [rewrite X; now rewrite (total_same ps ps' _ P)|]. destruct (o_flatten O); [|destruct (o_collapse O)].
  - destruct Y as (N & L & E). split; [destruct N as [N|N]; [now left|right; now apply S]|]. split; [|exact E]. intros k K. apply (L k). now apply S.
  - destruct Y as (n & names & N & Sq & A & Fo & E). exists n, names. split; [exact N|]. split; [now apply S|].
    split; [intro K; apply A; now apply (alone_same _ _ _ S)|]. split; [|exact E]. eapply folded_ext; [|exact Fo]. intros. now apply alone_same.
  - destruct Y as (N & Sq & E). split; [exact N|]. split; [now apply S|exact E].
Qed.
Lemma entry_fun : forall O ps r r', entry O ps r -> entry O ps r' -> account_of r = account_of r' -> r = r'.
Proof.
  intros O ps [[q x] s] [[q' x'] s'] [X Y] [X' Y'] E. unfold account_of in *. cbn [fst snd] in *. subst q'. rewrite <- X in X'. subst x'. f_equal.
  destruct (o_flatten O); [|destruct (o_collapse O)].
  - destruct Y as (_ & _ & ->). now destruct Y' as (_ & _ & ->).
  - destruct Y as (n & names & _ & _ & _ & Fo & ->). destruct Y' as (n' & names' & _ & _ & _ & Fo' & ->).
    destruct (folded_fun _ _ _ _ Fo _ _ Fo') as [-> ->]. reflexivity.
  - destruct Y as (_ & _ & ->). now destruct Y' as (_ & _ & ->).
Qed.

Lemma rows_same : forall l l' : list row, listed l -> listed l' -> (forall r, In r l <-> In r l') ->
  (forall r r', In r l -> In r' l -> account_of r = account_of r' -> r = r') -> l = l'.
Proof.
  intros l l' S S' I Fu.
  assert (K : map account_of l = map account_of l').
  { apply paths_same; [exact S|exact S'|]. intro q. rewrite !in_map_iff. split; intros (r & E & J); exists r; (split; [exact E|now apply I]). }
  assert (Sub : forall r, In r l' -> In r l) by (intros; now apply I). clear S S' I. revert l' K Sub.
  assert (G : forall m m' : list row, (forall r, In r m -> In r l) -> (forall r, In r m' -> In r l) -> map account_of m = map account_of m' -> m = m').
  { induction m as [|a m IH]; intros [|b m'] A B K; try discriminate; [reflexivity|]. cbn in K. injection K as K1 K2. f_equal.
    - apply Fu; [apply A|apply B|exact K1]; now left.
    - apply IH; [intros; apply A; now right|intros; apply B; now right|exact K2]. }
  intros l' K Sub. apply G; auto.
Qed.

(** Two runs over the same postings in whatever order and commodities. *)
Lemma same_figures : forall E O fs sel E' O' fs' sel', sane_clock E -> orders E -> filters_for E (o_args O) fs ->
  sane_clock E' -> orders E' -> filters_for E' (o_args O') fs' ->
  r_status (balance_cmd E O) = SOk -> r_status (balance_cmd E' O') = SOk ->
  picks E O fs (txns 0 (fst (stream E O))) sel -> picks E' O' fs' (txns 0 (fst (stream E' O'))) sel' ->
  Permutation (map plainly (taken sel)) (map plainly (taken sel')) ->
  o_flatten O' = o_flatten O -> o_collapse O' = o_collapse O -> o_show_zero O' = o_show_zero O ->
  exists ps ps' rows t, Permutation ps (taken sel) /\ Permutation ps' (taken sel') /\ listed rows /\
    r_out (balance_cmd E O) = reported ps rows t /\ r_out (balance_cmd E' O') = reported ps' rows t.
Proof.
  intros E O fs sel E' O' fs' sel' C Or F C' Or' F' Ok Ok' P P' Pm Hf Hc Hz.
  destruct (one_report E O fs C Or F Ok) as (s & rows & Ps & So & I & Q).
  destruct (one_report E' O' fs' C' Or' F' Ok') as (s' & rows' & Ps' & So' & I' & Q').
  pose proof (hits_taken _ _ _ _ _ _ Ps P) as H. pose proof (hits_taken _ _ _ _ _ _ Ps' P') as H'.
  assert (X : Permutation (map plainly (taken s)) (map plainly (taken s'))) by (rewrite H, H'; exact Pm).
  exists (taken s), (taken s'), rows, (wrap64 (total (taken s))). split; [exact H|]. split; [exact H'|]. split; [exact So|]. split; [exact Q|].
  rewrite Q'. replace rows' with rows.
  - f_equal. f_equal. rewrite <- (total_plainly (taken s)), <- (total_plainly (taken s')). symmetry. now apply total_perm.
  - apply rows_same; [exact So|exact So'| |].
    + intro r. rewrite I, I'. split; intro K; [eapply entry_same; [..|exact X|exact K]|eapply entry_same; [..|symmetry; exact X|exact K]]; congruence.
    + intros r r' J J'. apply I in J, J'. intro K. eapply entry_fun; eauto.
Qed.

(** Whatever the filters and commodities, the runs of balance over a journal end
    normally or not together; and then the reports have the same rows in the same
    order, with the same quantities, and the same total.  Only complaints and the
    commodities before the quantities may differ. *)
Theorem C26_rows_partial : forall E O o o', sane_clock E -> orders E -> orders (with_orders E o o') ->
  (r_status (balance_cmd (with_orders E o o') O) = SOk <-> r_status (balance_cmd E O) = SOk) /\
  (r_status (balance_cmd E O) = SOk -> exists ps ps' rows t, Permutation ps ps' /\ listed rows /\
     r_out (balance_cmd E O) = reported ps rows t /\ r_out (balance_cmd (with_orders E o o') O) = reported ps' rows t).
Proof.
  intros E O o o' C Or Or'. set (E' := with_orders E o o').
  assert (M : forall args, makeFilters E' args = makeFilters E args).
  { induction args as [|a args IH]; [reflexivity|]. cbn [makeFilters]. rewrite IH. reflexivity. }
  destruct (makeFilters E (o_args O)) as [fs|e|] eqn:Mf.
  2, 3: unfold balance_cmd, with_filters; rewrite M, Mf; cbn; split; [reflexivity|discriminate].
  assert (F : filters_for E (o_args O) fs) by (apply makeFilters_spec; exact Mf).
  assert (F' : filters_for E' (o_args O) fs) by (apply makeFilters_spec; rewrite M; exact Mf).
  assert (C' : sane_clock E') by exact C.
  assert (Pk : forall us sel, picks E O fs us sel <-> picks E' O fs us sel).
  { intros us sel. split; intro P.
    - induction P as [|u us sel No _ IH|u us sel ps W Ht P Wh _ IH]; [constructor|apply PickNot; assumption|apply PickIt; assumption].
    - induction P as [|u us sel No _ IH|u us sel ps W Ht P Wh _ IH]; [constructor|apply PickNot; assumption|apply PickIt; assumption]. }
  destruct (C61_balance E O fs C Or F) as [A _]. destruct (C61_balance E' O fs C' Or' F') as [A' _].
  assert (St : r_status (balance_cmd E' O) = SOk <-> r_status (balance_cmd E O) = SOk).
  { rewrite A, A'. split; intros (R & sel & P & Pr); (split; [exact R|]); exists sel; (split; [|exact Pr]); apply Pk; exact P. }
  split; [exact St|]. intro Ok. pose proof (proj2 St Ok) as Ok'. destruct (proj1 A Ok) as (R & sel & P & Pr).
  assert (P' : picks E' O fs (txns 0 (fst (stream E' O))) sel) by (apply Pk; exact P).
  destruct (same_figures E O fs sel E' O fs sel C Or F C' Or' F' Ok Ok' P P' ltac:(reflexivity) eq_refl eq_refl eq_refl)
    as (ps & ps' & rows & t & X & X' & So & Q & Q').
  exists ps, ps', rows, t. split; [now rewrite X, X'|]. auto.
Qed.

(** The journal of [C26_deterministic_refuted]. *)
Example C26_rows_example : let E := env1 [(lit "j", PropsBalance.text_mixed)] in let o := fun (_ : nat) A (l : list A) => rev l in
  let o' := fun (_ : list str) A (l : list A) => l in let O := opts3 [] [] false [lit "A:x"; lit "A:y"] in
  orders (with_orders E o o') /\ r_status (balance_cmd E O) = SOk /\ length (r_out (balance_cmd E O)) = 5%nat /\
  nth 2 (r_out (balance_cmd E O)) [] <> nth 2 (r_out (balance_cmd (with_orders E o o') O)) [].
Proof.
  cbn zeta. split; [split; intros; [symmetry; apply Permutation_rev|reflexivity]|]. split; [vm_compute; reflexivity|].
  vm_compute. split; [reflexivity|discriminate].
Qed.

(** ** C71 in whatever commodities: the balance of what print gives has the same
    rows, quantities and total.  Missing: transactions outside [legible] (with
    arguments, [reprintable]) and before year 1. *)
Theorem C71_figures_partial : forall E O sel out E' O', sane_clock E -> orders E -> sorts E -> o_args O = [] ->
  picks E O [] (txns 0 (fst (stream E O))) sel -> print_cmd E O = Outcome out SOk ->
  Forall legible (selected sel) -> Forall (fun t => 0 <= instant (t_date t)) (selected sel) ->
  sane_clock E' -> orders E' -> e_unicode E' = e_unicode E -> plain O' -> reads E' O' (concat out) ->
  o_flatten O' = o_flatten O -> o_collapse O' = o_collapse O -> o_show_zero O' = o_show_zero O ->
  exists ps ps' rows t, Permutation (map plainly ps) (map plainly ps') /\ listed rows /\
    balance_cmd E O = Outcome (reported ps rows t) SOk /\ balance_cmd E' O' = Outcome (reported ps' rows t) SOk.
Proof.
  intros E O sel out E' O' C Or So A P Q R Y C' Or' U Pl Rd Ofl Oc Oz.
  destruct (printed_taken E O sel out E' O' C Or So A P Q R Y U Pl Rd) as (Re & F & Re' & F' & Pr & sel' & P' & T).
  assert (Ok : r_status (balance_cmd E O) = SOk) by (apply (C61_balance E O [] C Or F); eauto).
  assert (Ok' : r_status (balance_cmd E' O') = SOk).
  { apply (C61_balance E' O' [] C' Or' F'). split; [exact Re'|]. exists sel'. split; [exact P'|]. apply priced_plainly. eapply Permutation_Forall; [exact T|].
    now apply priced_plainly. }
  destruct (same_figures E O [] sel E' O' [] sel' C Or F C' Or' F' Ok Ok' P P' T Ofl Oc Oz) as (ps & ps' & rows & t & X & X' & S & B & B').
  exists ps, ps', rows, t. split; [now rewrite X, X'|]. split; [exact S|].
  destruct (balance_cmd E O), (balance_cmd E' O'). cbn in *. subst. auto.
Qed.
Theorem C71_figures_arguments_partial : forall E O fs sel out E' O', sane_clock E -> orders E -> sorts E -> filters_for E (o_args O) fs ->
  picks E O fs (txns 0 (fst (stream E O))) sel -> print_cmd E O = Outcome out SOk ->
  Forall reprintable (selected sel) -> Forall (fun t => 0 <= instant (t_date t)) (selected sel) ->
  sane_clock E' -> orders E' -> e_unicode E' = e_unicode E -> e_re_match E' = e_re_match E -> e_re_ok E' = e_re_ok E ->
  plain (with_args O' []) -> o_args O' = o_args O -> reads E' O' (concat out) ->
  o_flatten O' = o_flatten O -> o_collapse O' = o_collapse O -> o_show_zero O' = o_show_zero O ->
  exists ps ps' rows t, Permutation ps ps' /\ listed rows /\
    balance_cmd E O = Outcome (reported ps rows t) SOk /\ balance_cmd E' O' = Outcome (reported ps' rows t) SOk.
Proof.
  intros E O fs sel out E' O' C Or So F P Q R Y C' Or' U Rm Ro Pl Ar Rd Ofl Oc Oz.
  destruct (printed_hits E O fs sel out E' O' C Or So F P Q R Y U Rm Ro Pl Ar Rd) as (Re & Re' & F' & Pr & sel' & P' & T).
  assert (Ok : r_status (balance_cmd E O) = SOk) by (apply (C61_balance E O fs C Or F); eauto).
  assert (Ok' : r_status (balance_cmd E' O') = SOk).
  { apply (C61_balance E' O' fs C' Or' F'). split; [exact Re'|]. exists sel'. split; [exact P'|]. eapply Permutation_Forall; [exact T|exact Pr]. }
  destruct (same_figures E O fs sel E' O' fs sel' C Or F C' Or' F' Ok Ok' P P' (Permutation_map plainly T) Ofl Oc Oz) as (ps & ps' & rows & t & X & X' & S & B & B').
  exists ps, ps', rows, t. split; [now rewrite X, X', T|]. split; [exact S|].
  destruct (balance_cmd E O), (balance_cmd E' O'). cbn in *. subst. auto.
Qed.

(** The journal of [C71_mixed_refuted]. *)
Example C71_figures_example : let E := env1 [(lit "j", text_mixed)] in let E' := env1 [(lit "j", print_text text_mixed)] in let O := opts0 "j" in
  (exists sel, picks E O [] (txns 0 (fst (stream E O))) sel /\ Forall legible (selected sel) /\ Forall (fun t => 0 <= instant (t_date t)) (selected sel)) /\
  print_cmd E O = Outcome (r_out (print_cmd E O)) SOk /\ reads E' O (concat (r_out (print_cmd E O))) /\
  r_out (balance_cmd E' O) <> r_out (balance_cmd E O).
Proof.
  cbn zeta. split; [|split; [vm_compute; reflexivity|split; [exists (lit "j"); split; vm_compute; reflexivity|vm_compute; discriminate]]].
  set (us := txns 0 (fst (stream (env1 [(lit "j", text_mixed)]) (opts0 "j")))). vm_compute in us.
  exists (map (fun u => (u, t_postings (u_txn u))) us). split; [|split; [apply legibleb_ok; vm_compute; reflexivity|]].
  - subst us. cbn [map]. repeat (apply PickIt; [apply plain_within; [apply plain0|vm_compute; discriminate]|reflexivity|reflexivity|reflexivity|]). apply PickNone.
  - subst us. repeat (constructor; [vm_compute; discriminate|]). constructor.
Qed.

(** ** C92 in whatever commodities: the order of the transactions in a journal
    changes neither rows nor quantities nor the total. *)
Theorem C92_figures : forall E O p, journal_path E O = Some p -> steady E -> forall xs ys, Forall line_start xs -> Permutation xs ys ->
  sane_clock E -> orders E -> forall fs, filters_for E (o_args O) fs -> sorts E ->
  let E1 := holding E p (one_after_another xs) in let E2 := holding E p (one_after_another ys) in
  r_status (balance_cmd E1 O) = SOk ->
  exists ps ps' rows t, Permutation ps ps' /\ listed rows /\
    balance_cmd E1 O = Outcome (reported ps rows t) SOk /\ balance_cmd E2 O = Outcome (reported ps' rows t) SOk.
Proof.
  intros E O p Path St xs ys Sx Pm C Or fs F So E1 E2 Ok.
  pose proof (proj1 (C92_balance E O p Path St xs ys Sx Pm C Or fs F So)) as B. pose proof (proj1 B Ok) as Ok2. fold E1 in B, Ok2. fold E2 in B, Ok2.
  assert (F1 : filters_for E1 (o_args O) fs) by (apply holding_filters; exact F).
  assert (F2 : filters_for E2 (o_args O) fs) by (apply holding_filters; exact F).
  destruct (proj1 (proj1 (C61_balance E1 O fs C Or F1)) Ok) as (R1 & s1 & P1 & _).
  destruct (proj1 (proj1 (C61_balance E2 O fs C Or F2)) Ok2) as (R2 & s2 & P2 & _).
  destruct (order_picks E O p Path St xs ys Sx Pm fs s1 s2 (proj1 R1) P1 P2) as [_ T].
  destruct (same_figures E1 O fs s1 E2 O fs s2 C Or F1 C Or F2 Ok Ok2 P1 P2 (Permutation_map plainly T) eq_refl eq_refl eq_refl)
    as (ps & ps' & rows & t & X & X' & S & Q & Q').
  exists ps, ps', rows, t. split; [now rewrite X, X', T|]. split; [exact S|].
  destruct (balance_cmd E1 O), (balance_cmd E2 O). cbn in *. subst. auto.
Qed.

(** A journal in two commodities. *)
Definition euro_text : str := lit "2021-03-01 B" ++ [10] ++ lit "    x    €1" ++ [10] ++ lit "    y    €-1" ++ [10].
Definition dollar_text : str := lit "2021-03-02 A" ++ [10] ++ lit "    x    $1" ++ [10] ++ lit "    y    $-1" ++ [10].
Example C92_figures_example : let E := env1 [] in let O := opts0 "j" in
  let E1 := holding E (lit "j") (one_after_another [euro_text; dollar_text]) in let E2 := holding E (lit "j") (one_after_another [dollar_text; euro_text]) in
  journal_path E O = Some (lit "j") /\ steady E /\ Forall line_start [euro_text; dollar_text] /\ Permutation [euro_text; dollar_text] [dollar_text; euro_text] /\
  sane_clock E /\ orders E /\ filters_for E (o_args O) [] /\ sorts E /\ r_status (balance_cmd E1 O) = SOk /\
  hd [] (rev (r_out (balance_cmd E1 O))) = hd [] (rev (r_out (balance_cmd E2 O))) /\ r_out (balance_cmd E2 O) <> r_out (balance_cmd E1 O).
Proof.
  cbn zeta. split; [reflexivity|]. split; [intro n; split; reflexivity|]. split.
  { unfold euro_text, dollar_text. repeat (apply Forall_cons; [right; rewrite !app_assoc; eexists; reflexivity|]). apply Forall_nil. }
  split; [apply perm_swap|]. split; [apply env1_clock|]. split; [apply env1_orders|]. split; [split; constructor|]. split; [exact (env0_sorts [])|].
  split; [vm_compute; reflexivity|]. split; [vm_compute; reflexivity|vm_compute; discriminate].
Qed.
