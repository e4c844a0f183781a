(** * The order of the arguments, and giving one twice, does not matter: C114 *)
From Verif Require Import Base BaseFacts Utf8 Unicode GoTime Strconv Display Journal Lexer Parser ParserFacts Account Reporting Budget FlatSpec Spec TextSpec
  TreeFacts ReportSpec DateFacts Sample ParseRel CmdSpec StreamFacts CmdFacts Cmd PropsCmd PropsBalance PropsAgain Main MainSpec PropsMain PropsMachine
  PropsFigures.

(** ** Filters as a set *)
Lemma existsb_set : forall A (h : A -> bool) l l', (forall x, In x l <-> In x l') -> existsb h l = existsb h l'.
Proof.
  intros A h l l' H. apply eq_true_iff_eq. rewrite !existsb_exists. split; intros (x & I & K); exists x; (split; [now apply H|exact K]).
Qed.
Lemma nil_set : forall A (l l' : list A), (forall x, In x l <-> In x l') -> (l = [] <-> l' = []).
Proof.
  intros A l l' H. split; intros ->.
  - destruct l' as [|x l']; [reflexivity|]. destruct (proj2 (H x) (or_introl eq_refl)).
  - destruct l as [|x l]; [reflexivity|]. destruct (proj1 (H x) (or_introl eq_refl)).
Qed.

Lemma filter_for_fun : forall E a f f', filter_for E a f -> filter_for E a f' -> f = f'.
Proof. intros E a f f' H H'. destruct H; inversion H'; subst; cbn in *; congruence. Qed.
Lemma filters_in : forall E A fs, Forall2 (filter_for E) A fs ->
  (forall f, In f fs -> exists a, In a A /\ filter_for E a f) /\ (forall a, In a A -> exists f, In f fs /\ filter_for E a f).
Proof.
  intros E A fs H. induction H as [|a f A fs H _ [IH1 IH2]]; [split; intros x []|]. split.
  - intros g [<-|I]; [exists a; split; [now left|exact H]|]. destruct (IH1 g I) as (b & Ib & Hb). exists b. split; [now right|exact Hb].
  - intros b [<-|I]; [exists f; split; [now left|exact H]|]. destruct (IH2 b I) as (g & Ig & Hg). exists g. split; [now right|exact Hg].
Qed.
Lemma filters_exist : forall E A B fs, filters_for E A fs -> (forall a, In a B -> In a A) -> exists gs, filters_for E B gs.
Proof.
  intros E A B fs [F Ok] Sub. destruct (filters_in E A fs F) as [_ K]. rewrite Forall_forall in Ok.
  assert (X : forall l, (forall a, In a l -> In a A) -> exists gs, filters_for E l gs); [|exact (X B Sub)].
  induction l as [|b l IH]; intro Sl; [exists []; split; constructor|].
  destruct IH as (gs & G1 & G2); [intros; apply Sl; now right|]. destruct (K b (Sl b (or_introl eq_refl))) as (f & I & H).
  exists (f :: gs). split; constructor; auto.
Qed.
Lemma filters_set : forall E A B fs gs, filters_for E A fs -> filters_for E B gs -> (forall a, In a A -> In a B) -> forall f, In f fs -> In f gs.
Proof.
  intros E A B fs gs [F _] [G _] Sub f I. destruct (proj1 (filters_in E A fs F) f I) as (a & Ia & Ha).
  destruct (proj2 (filters_in E B gs G) a (Sub a Ia)) as (g & Ig & Hg). now rewrite (filter_for_fun E a f g Ha Hg).
Qed.

(** ** Permuting by positions *)
Fixpoint place (x : nat) (l : list nat) : nat := match l with [] => 0%nat | y :: l' => if (x =? y)%nat then 0%nat else S (place x l') end.
Lemma nth_place : forall x l, In x l -> nth_error l (place x l) = Some x.
Proof.
  intros x l. induction l as [|y l IH]; intro I; [destruct I|]. cbn. destruct (Nat.eqb_spec x y) as [->|N]; [reflexivity|].
  destruct I as [I|I]; [congruence|]. cbn. auto.
Qed.
Lemma places : forall l, NoDup l -> map (fun x => place x l) l = seq 0 (length l).
Proof.
  intros l N. induction N as [|x l Nx N IH]; [reflexivity|]. cbn [map length seq place]. rewrite Nat.eqb_refl. f_equal.
  rewrite <- seq_shift, <- IH, map_map. apply map_ext_in. intros y I. destruct (Nat.eqb_spec y x) as [->|_]; [contradiction|reflexivity].
Qed.
Lemma pick_all : forall A (l : list A), pick l (seq 0 (length l)) = l.
Proof.
  intros A l. assert (X : forall pre, pick (pre ++ l) (seq (length pre) (length l)) = l); [|exact (X [])].
  induction l as [|x l IH]; intro pre; [reflexivity|]. cbn [length seq pick flat_map]. rewrite nth_error_app2, Nat.sub_diag by lia. cbn [nth_error app]. f_equal.
  specialize (IH (pre ++ [x])). rewrite <- app_assoc in IH. cbn [app] in IH. rewrite app_length in IH. cbn [length] in IH. rewrite Nat.add_1_r in IH. exact IH.
Qed.
Lemma pick_places : forall l l' : list nat, (forall x, In x l' -> In x l) -> pick l (map (fun x => place x l) l') = l'.
Proof.
  intros l l' H. induction l' as [|x l' IH]; [reflexivity|]. cbn [map pick flat_map]. rewrite (nth_place x l) by (apply H; now left). cbn [app]. f_equal.
  apply IH. intros; apply H; now right.
Qed.

(** ** Equality of transactions *)
Definition str_dec : forall a b : str, {a = b} + {a <> b} := list_eq_dec Z.eq_dec.
Definition posting_dec : forall a b : posting, {a = b} + {a <> b}.
Proof.
  decide equality; [|apply str_dec|apply (list_eq_dec str_dec)]. decide equality. decide equality; [apply Z.eq_dec|apply str_dec].
Defined.
Definition txn_dec : forall a b : transaction, {a = b} + {a <> b}.
Proof.
  decide equality; try apply (list_eq_dec str_dec); try apply str_dec.
  - decide equality. apply Nat.eq_dec.
  - apply (list_eq_dec posting_dec).
  - decide equality.
  - decide equality; apply Z.eq_dec.
Defined.

(** ** Handlers that agree on the transactions of the journal in their places *)
Section Run.
Variable E : env.
Variable O : opts.
Variable o : nat -> forall A, list A -> list A.
Let E' := with_orders E o (e_tree_order E).
Let ts := map u_txn (txns 0 (fst (stream E O))).
Variable D : Type.
Variables th th' : hstate D -> transaction -> str -> hstate D * status.
Variable ph : option (hstate D -> ptransaction -> str -> hstate D * status).
Variable s0 : hstate D.
Hypothesis Start : h_n s0 = 0%nat.
Hypothesis Counts : forall s t p, snd (th s t p) = SOk -> h_n (fst (th s t p)) = S (h_n s).
Hypothesis Keeps : forall s t p, match ph with Some h => h_n (fst (h s t p)) = h_n s | None => True end.

Lemma run_counts : forall evs s s', deliver_all (Some th) ph s evs = (s', SOk) -> h_n s' = (h_n s + length (txns 0 evs))%nat.
Proof.
  assert (L : forall evs n m, length (txns n evs) = length (txns m evs)).
  { induction evs as [|[t p|t p] evs IH]; intros n m; cbn; [reflexivity|f_equal; apply IH|apply IH]. }
  induction evs as [|[t p|t p] evs IH]; intros s s' H; cbn [deliver_all deliver] in H.
  - inversion H; subst. cbn. lia.
  - pose proof (Counts s t p) as K. destruct (th s t p) as [s1 [| | | |]]; try discriminate. cbn [fst snd] in K. rewrite (IH s1 s' H), (K eq_refl). cbn [txns length].
    rewrite (L evs 1%nat 0%nat). lia.
  - pose proof (Keeps s t p) as K. destruct ph as [h|].
    + destruct (h s t p) as [s1 [| | | |]]; try discriminate. cbn [fst] in K. rewrite (IH s1 s' H), K. reflexivity.
    + rewrite (IH s s' H). reflexivity.
Qed.
Lemma final_count : forall s', parse_cmd E O (Some th) ph s0 = (s', SOk) -> h_n s' = length ts.
Proof.
  intros s' H. apply parse_cmd_ok in H as [_ H]. apply run_counts in H. rewrite Start in H. unfold ts. now rewrite map_length.
Qed.

Hypothesis Agree : forall s t p, nth_error ts (h_n s) = Some t -> th' s t p = th s t p.

Definition here_now (n : nat) (t : transaction) : bool :=
  match nth_error ts n with Some t' => if txn_dec t' t then true else false | None => false end.
Definition guarded (h : hstate D * bool) (t : transaction) (p : str) : (hstate D * bool) * status :=
  if here_now (h_n (fst h)) t then let '(s, r) := th (fst h) t p in ((s, snd h), r) else ((fst h, false), SFatal).
Definition guarded_ph : option (hstate D * bool -> ptransaction -> str -> (hstate D * bool) * status) :=
  match ph with Some k => Some (fun h t p => let '(s, r) := k (fst h) t p in ((s, snd h), r)) | None => None end.

Lemma guarded_good : forall evs h, snd h = true -> (exists pre, ts = pre ++ map u_txn (txns 0 evs) /\ length pre = h_n (fst h)) ->
  snd (fst (deliver_all (Some guarded) guarded_ph h evs)) = true.
Proof.
  assert (L : forall evs n m, map u_txn (txns n evs) = map u_txn (txns m evs)).
  { induction evs as [|[t p|t p] evs IH]; intros n m; cbn; [reflexivity|f_equal; apply IH|apply IH]. }
  induction evs as [|[t p|t p] evs IH]; intros h H (pre & Q & N); [exact H| |]; cbn [deliver_all deliver].
  - unfold guarded at 1. assert (here_now (h_n (fst h)) t = true) as ->.
    { unfold here_now. rewrite Q, <- N, nth_error_app2, Nat.sub_diag by lia. cbn. now destruct (txn_dec t t). }
    pose proof (Counts (fst h) t p) as K. destruct (th (fst h) t p) as [s [| | | |]]; try exact H. apply IH; [exact H|]. exists (pre ++ [t]). split.
    + rewrite Q, <- app_assoc. cbn. now rewrite (L evs 1%nat 0%nat).
    + cbn [fst snd] in *. rewrite (K eq_refl), app_length, N. cbn. lia.
  - unfold guarded_ph at 1. pose proof (Keeps (fst h) t p) as K. destruct ph as [k|].
    + destruct (k (fst h) t p) as [s [| | | |]]; try exact H. apply IH; [exact H|]. exists pre. split; [exact Q|]. cbn [fst] in *. now rewrite K.
    + apply IH; [exact H|]. exists pre. split; [exact Q|exact N].
Qed.

Lemma same_run : parse_cmd E' O (Some th') ph s0 = parse_cmd E O (Some th) ph s0.
Proof.
  assert (NE : snd (fst (parse_cmd E O (Some guarded) guarded_ph (s0, true))) = true).
  { pose proof (parse_cmd_fold E O _ (Some guarded) guarded_ph (s0, true)) as F.
    pose proof (guarded_good (fst (stream E O)) (s0, true) eq_refl ltac:(exists []; split; [reflexivity|cbn [fst length]; now rewrite Start])) as W. rewrite (surjective_pairing (stream E O)) in F. cbv beta iota in F.
    destruct (deliver_all _ _ _ _) as [s' r']. destruct F as [-> _]. exact W. }
  assert (A : agree (hstate D) (hstate D * bool) (fun s h => s = fst h) (fun s h => s = fst h) (fun h => snd h = false)
     (parse_cmd E O (Some th) ph s0) (parse_cmd E O (Some guarded) guarded_ph (s0, true))).
  { unfold parse_cmd. destruct (match o_file O with [] => e_ledger_file E | z :: l => Some (z :: l) end) as [path|]; [|left; cbn; auto].
    destruct (e_fs E path) as [f|]; [|left; cbn; auto].
    apply parse_agree; auto.
    - intros s h t p ->. unfold run_t, guarded. destruct (here_now _ t).
      + destruct (th (fst h) t p) as [s1 r]. left. cbn. auto.
      + right. cbn. split; [discriminate|reflexivity].
    - intros s h t p ->. unfold run_p, guarded_ph. destruct ph as [k|]; [|left; cbn; auto]. destruct (k (fst h) t p) as [s1 r]. left. cbn. auto. }
  assert (A' : agree (hstate D) (hstate D * bool) (fun s h => s = fst h) (fun s h => s = fst h) (fun h => snd h = false)
     (parse_cmd E' O (Some th') ph s0) (parse_cmd E O (Some guarded) guarded_ph (s0, true))).
  { unfold parse_cmd. change (e_ledger_file E') with (e_ledger_file E).
    destruct (match o_file O with [] => e_ledger_file E | z :: l => Some (z :: l) end) as [path|]; [|left; cbn; auto].
    change (e_fs E' path) with (e_fs E path). destruct (e_fs E path) as [f|]; [|left; cbn; auto].
    change (e_fs E') with (e_fs E). change (e_unicode E') with (e_unicode E). change (e_depth E') with (e_depth E).
    apply parse_agree; auto.
    - intros s h t p ->. unfold run_t, guarded. unfold here_now. destruct (nth_error ts (h_n (fst h))) as [t'|] eqn:Nt.
      + destruct (txn_dec t' t) as [->|_]; [|right; cbn; split; [discriminate|reflexivity]].
        rewrite (Agree _ _ p Nt). destruct (th (fst h) t p) as [s1 r]. left. cbn. auto.
      + right. cbn. split; [discriminate|reflexivity].
    - intros s h t p ->. unfold run_p, guarded_ph. destruct ph as [k|]; [|left; cbn; auto]. destruct (k (fst h) t p) as [s1 r]. left. cbn. auto. }
  destruct (parse_cmd E O (Some th) ph s0) as [s r]. destruct (parse_cmd E' O (Some th') ph s0) as [s' r'].
  destruct (parse_cmd E O (Some guarded) guarded_ph (s0, true)) as [h rh]. cbn [fst snd] in *.
  destruct A as [(Q & X & _)|[_ X]]; [|cbn in X; congruence]. destruct A' as [(Q' & X' & _)|[_ X']]; [|cbn in X'; congruence].
  cbn [fst snd] in *. congruence.
Qed.
End Run.

(** ** The order that makes up for the other arguments *)
Section Args.
Variable E : env.
Variable O : opts.
Variables A B : list str.
Variables fs gs : list filter_.
Hypothesis Orders : orders E.
Hypothesis Same : forall a, In a A <-> In a B.
Hypothesis FA : filters_for E A fs.
Hypothesis FB : filters_for E B gs.
Let ts := map u_txn (txns 0 (fst (stream E O))).

Lemma filters_alike : forall f, In f fs <-> In f gs.
Proof. intro f. split; [apply (filters_set E A B fs gs FA FB); intros; now apply Same|apply (filters_set E B A gs fs FB FA); intros; now apply Same]. Qed.
Lemma whole_alike : forall t, whole_hit E fs t = whole_hit E gs t.
Proof. intro t. apply existsb_set, filters_alike. Qed.
Lemma posting_alike : forall p, posting_hit E fs p = posting_hit E gs p.
Proof. intro p. apply existsb_set, filters_alike. Qed.

Definition made_up (n : nat) (T : Type) (l : list T) : list T :=
  match nth_error ts n with
  | None => e_order E n T l
  | Some t =>
      match match_filters E fs t [], match_filters E gs t [] with
      | Some is, Some js =>
          if (length l =? length js)%nat then pick l (map (fun i => place i js) (e_order E n nat is)) else e_order E n T l
      | _, _ => e_order E n T l
      end
  end.
Let E' := with_orders E made_up (e_tree_order E).

Lemma matched : forall t is js, match_filters E fs t [] = Some is -> match_filters E gs t [] = Some js -> NoDup js /\ Permutation is js.
Proof.
  intros t is js M M'. pose proof (match_filters_spec E fs t [] (NoDup_nil _)) as K. pose proof (match_filters_spec E gs t [] (NoDup_nil _)) as K'.
  rewrite M in K. rewrite M' in K'. destruct K as (_ & N & I). destruct K' as (_ & N' & I'). split; [exact N'|]. apply NoDup_Permutation; auto.
  intro i. rewrite I, I'. split; (intros [[]|(p & X & Y)]; right; exists p; split; [exact X|]); [rewrite <- posting_alike|rewrite posting_alike]; exact Y.
Qed.

Lemma made_up_orders : orders E'.
Proof.
  split; [|exact (proj2 Orders)]. intros n T l. cbn [E' with_orders e_order]. unfold made_up.
  destruct (nth_error ts n) as [t|]; [|apply (proj1 Orders)].
  destruct (match_filters E fs t []) as [is|] eqn:M; [|apply (proj1 Orders)].
  destruct (match_filters E gs t []) as [js|] eqn:M'; [|apply (proj1 Orders)].
  destruct (Nat.eqb_spec (length l) (length js)) as [L|_]; [|apply (proj1 Orders)].
  destruct (matched t is js M M') as [N P]. etransitivity; [apply pick_perm|rewrite pick_all; reflexivity].
  rewrite L, <- (places js N). apply Permutation_map. etransitivity; [apply (proj1 Orders)|exact P].
Qed.

Lemma check_alike : forall n t, nth_error ts n = Some t ->
  checkAgainstFilters E' (with_args O B) gs n t = checkAgainstFilters E (with_args O A) fs n t.
Proof.
  intros n t H. unfold checkAgainstFilters. change (withinDateRange E' (with_args O B) n t) with (withinDateRange E (with_args O A) n t).
  destruct (withinDateRange E (with_args O A) n t) as [[|]| |]; try reflexivity.
  pose proof (nil_set _ fs gs filters_alike) as Nl. change (match_filters E') with (match_filters E).
  assert (K : match match_filters E gs t [] with None => POk (true, t_postings t) | Some js => POk (false, pick (t_postings t) (e_order E' n nat js)) end =
              match match_filters E fs t [] with None => POk (true, t_postings t) | Some is => POk (false, pick (t_postings t) (e_order E n nat is)) end).
  { pose proof (match_filters_spec E fs t [] (NoDup_nil _)) as M. pose proof (match_filters_spec E gs t [] (NoDup_nil _)) as M'.
    rewrite (whole_alike t) in M. destruct (match_filters E fs t []) as [is|] eqn:Qf; destruct (match_filters E gs t []) as [js|] eqn:Qg; try reflexivity.
    - destruct (matched t is js Qf Qg) as [N P]. do 3 f_equal. cbn [E' with_orders e_order]. unfold made_up. rewrite H, Qf, Qg, Nat.eqb_refl.
      apply pick_places. intros x I. apply (Permutation_in _ P), (Permutation_in _ (proj1 Orders n nat is)), I.
    - destruct M as [M _]. congruence.
    - destruct M' as [M' _]. congruence. }
  destruct fs as [|f fs0]; destruct gs as [|g gs0]; [reflexivity|discriminate (proj1 Nl eq_refl)|discriminate (proj2 Nl eq_refl)|exact K].
Qed.

Lemma checked_alike : forall D (k : hstate D -> nat -> transaction -> list posting -> str -> hstate D * status) s t p,
  nth_error ts (h_n s) = Some t -> checked E' (with_args O B) gs k s t p = checked E (with_args O A) fs k s t p.
Proof. intros D k s t p H. unfold checked. now rewrite check_alike. Qed.
Lemma checked_counts : forall D (k : hstate D -> nat -> transaction -> list posting -> str -> hstate D * status),
  (forall s n t ps p, h_n (fst (k s n t ps p)) = h_n s) -> forall s t p, snd (checked E (with_args O A) fs k s t p) = SOk ->
  h_n (fst (checked E (with_args O A) fs k s t p)) = S (h_n s).
Proof.
  intros D k H s t p. unfold checked. destruct (checkAgainstFilters _ _ _ _ _) as [[m ps]| |]; try discriminate.
  destruct (negb m && is_nil ps); [reflexivity|]. intros _. now rewrite H.
Qed.

Lemma made_up_end : forall T (l : list T), made_up (length ts) T l = e_order E (length ts) T l.
Proof. intros T l. unfold made_up. now rewrite (proj2 (nth_error_None ts (length ts))) by lia. Qed.

Lemma balance_ph_keeps : forall s t p, h_n (fst (balance_ph s t p)) = h_n s.
Proof. intros s t p. unfold balance_ph. destruct (j_addPeriodicTransaction _ _ _) as [[j out] r]. reflexivity. Qed.
Lemma budget_ph_keeps : forall s t p, h_n (fst (budget_ph s t p)) = h_n s.
Proof.
  intros s t p. unfold budget_ph. destruct (pt_run t) as [l out]. destruct (is_pnone _); [|reflexivity]. destruct l as [|x l]; [reflexivity|].
  destruct (b_addPostings _ _ _ _) as [[b o] r]. reflexivity.
Qed.

Lemma does_alike : forall c, (c = Payees -> Forall (fun a => e_re_ok E (case_text E a) = true) A) ->
  does E' c (with_args O B) = does E c (with_args O A).
Proof.
  intros c Hp. pose proof (nil_set _ fs gs filters_alike) as Nl.
  assert (MA : makeFilters E A = POk fs) by now apply makeFilters_spec. assert (MB : makeFilters E' B = POk gs) by now apply (makeFilters_spec E B gs).
  destruct c; cbn [does]; unfold accounts_cmd, balance_cmd, budget_cmd, payees_cmd, print_cmd, stats_cmd, with_filters; cbn [o_args with_args]; rewrite MA, MB.
  - change (accounts_run E' (with_args O B)) with (accounts_run E (with_args O A)). unfold accounts_run.
    unfold finish. destruct (parse_cmd E _ _ None _) as [s [| | | |]]; try reflexivity. do 3 f_equal. unfold accounts_prepare.
    assert (Pm : Permutation (e_order E' (h_n s) str (h_data s)) (e_order E (h_n s) str (h_data s))).
    { rewrite (proj1 made_up_orders (h_n s) _ (h_data s)). symmetry. apply (proj1 Orders). }
    assert (Ex : forall x, existsb (fun f => matchesString (e_re_match E) f x) gs = existsb (fun f => matchesString (e_re_match E) f x) fs).
    { intro x. symmetry. apply existsb_set, filters_alike. }
    destruct fs as [|f fs0]; destruct gs as [|g gs0]; [|discriminate (proj1 Nl eq_refl)|discriminate (proj2 Nl eq_refl)|].
    + now apply sort_strings_permutation.
    + change (e_re_match E') with (e_re_match E). rewrite (filter_ext _ _ Ex). apply sort_strings_permutation. now apply TreeFacts.filter_perm.
  - unfold balance_run.
    rewrite <- (same_run E (with_args O A) made_up _ (checked E (with_args O A) fs balance_handler) (checked E' (with_args O B) gs balance_handler) (Some balance_ph) (HS 0 [] newJournal) eq_refl).
    + reflexivity.
    + apply checked_counts. intros s n t ps p. unfold balance_handler. destruct (j_addPostings _ _) as [[j out] r]. reflexivity.
    + intros. apply balance_ph_keeps.
    + intros s t p H. apply checked_alike. exact H.
  - unfold budget_run.
    rewrite <- (same_run E (with_args O A) made_up _ (checked E (with_args O A) fs budget_handler) (checked E' (with_args O B) gs budget_handler) (Some budget_ph) (HS 0 [] newBudget) eq_refl).
    + reflexivity.
    + apply checked_counts. intros s n t ps p. unfold budget_handler. destruct (b_addPostings _ _ _ _) as [[j out] r]. reflexivity.
    + intros. apply budget_ph_keeps.
    + intros s t p H. apply checked_alike. exact H.
  - change (payees_run E' (with_args O B)) with (payees_run E (with_args O A)). unfold payees_run.
    unfold finish. destruct (parse_cmd E _ _ None _) as [s [| | | |]]; try reflexivity. unfold payees_prepare.
    assert (Pm : Permutation (e_order E' (h_n s) str (h_data s)) (e_order E (h_n s) str (h_data s))).
    { rewrite (proj1 made_up_orders (h_n s) _ (h_data s)). symmetry. apply (proj1 Orders). }
    pose proof (nil_set _ A B Same) as Na. specialize (Hp eq_refl). change (smart_case (e_unicode E')) with (case_text E). change (smart_case (e_unicode E)) with (case_text E).
    change (e_re_ok E') with (e_re_ok E). change (e_re_match E') with (e_re_match E).
    assert (No : forall l, (forall a, In a l -> In a A) -> find (fun r => negb (e_re_ok E r)) (map (case_text E) l) = None).
    { induction l as [|a l IH]; intro Sub; [reflexivity|]. cbn [map find]. rewrite Forall_forall in Hp. rewrite (Hp a) by (apply Sub; now left).
      cbn [negb]. apply IH. intros; apply Sub; now right. }
    pose proof (No A ltac:(auto)) as NA. pose proof (No B ltac:(intros; now apply Same)) as NB. clear No Hp.
    assert (Ex : forall x, existsb (fun r => e_re_match E r x) (map (case_text E) B) = existsb (fun r => e_re_match E r x) (map (case_text E) A)).
    { intro x. apply existsb_set. intro r. rewrite !in_map_iff. split; intros (a & Q & I); exists a; (split; [exact Q|now apply Same]). }
    destruct A as [|a A0]; destruct B as [|b B0]; [|discriminate (proj1 Na eq_refl)|discriminate (proj2 Na eq_refl)|].
    + now rewrite (sort_strings_permutation _ _ Pm).
    + rewrite NA, NB. rewrite (filter_ext _ _ Ex). now rewrite (sort_strings_permutation _ _ (TreeFacts.filter_perm _ _ _ _ Pm)).
  - unfold print_run.
    rewrite <- (same_run E (with_args O A) made_up _ (checked E (with_args O A) fs print_handler) (checked E' (with_args O B) gs print_handler) None (HS 0 [] []) eq_refl).
    + reflexivity.
    + apply checked_counts. reflexivity.
    + intros. exact I.
    + intros s t p H. apply checked_alike. exact H.
  - unfold stats_run.
    assert (K : forall s n t ps p, h_n (fst (stats_handler s n t ps p)) = h_n s).
    { intros s n t ps p. unfold stats_handler. destruct (stats_step _ _ _ _); reflexivity. }
    pose proof (final_count E (with_args O A) _ (checked E (with_args O A) fs stats_handler) None (HS 0 [] newStats) eq_refl (checked_counts _ _ K) (fun _ _ _ => I)) as Fc.
    assert (Sr : parse_cmd E' (with_args O B) (Some (checked E' (with_args O B) gs stats_handler)) None (HS 0 [] newStats) =
                 parse_cmd E (with_args O A) (Some (checked E (with_args O A) fs stats_handler)) None (HS 0 [] newStats)).
    { apply (same_run E (with_args O A) made_up); [reflexivity|apply (checked_counts _ _ K)|intros; exact I|]. intros s t p H. apply checked_alike. exact H. }
    rewrite Sr. destruct (parse_cmd E (with_args O A) _ None _) as [s [| | | |]]; try reflexivity.
    assert (Rep : forall d, stats_report E' (length ts) d = stats_report E (length ts) d).
    { intro d. unfold stats_report. change (e_order E' (length ts) str (s_files d)) with (made_up (length ts) str (s_files d)).
      rewrite made_up_end. reflexivity. }
    unfold finish. rewrite (Fc s eq_refl). change (map u_txn (txns 0 (fst (stream E (with_args O A))))) with ts. now rewrite Rep.
  - reflexivity.
Qed.
End Args.

(** Arguments with the same elements: whatever a command may print and end with,
    for some order of the maps, with the arguments [A], it may with [B]. *)
Theorem C114_possible : forall E O A B fs, orders E -> filters_for E A fs -> (forall a, In a A <-> In a B) ->
  exists o, orders (with_orders E o (e_tree_order E)) /\
    forall c, (c = Payees -> Forall (fun a => e_re_ok E (case_text E a) = true) A) ->
    does (with_orders E o (e_tree_order E)) c (with_args O B) = does E c (with_args O A).
Proof.
  intros E O A B fs Or F Same. destruct (filters_exist E A B fs F) as (gs & G); [intros; now apply Same|].
  exists (made_up E O fs gs). split; [exact (made_up_orders E O A B fs gs Or Same F G)|]. intros c Hp. exact (does_alike E O A B fs gs Or Same F G c Hp).
Qed.

(** Print and the listings show the very same. *)
Theorem C114_listings : forall E O A B fs, sane_clock E -> orders E -> filters_for E A fs -> (forall a, In a A <-> In a B) ->
  forall c, c = Print \/ c = Accounts \/ c = Payees /\ Forall (fun a => e_re_ok E (case_text E a) = true) A ->
  does E c (with_args O B) = does E c (with_args O A).
Proof.
  intros E O A B fs C Or F Same c Hc. destruct (C114_possible E O A B fs Or F Same) as (o & Or' & K).
  rewrite <- (K c) by (intros ->; destruct Hc as [Hc|[Hc|[_ Hc]]]; [discriminate|discriminate|exact Hc]).
  symmetry. apply (C94_orders E (with_args O B) C o (e_tree_order E) Or Or'). destruct Hc as [Hc|[Hc|[Hc _]]]; auto.
Qed.

(** Balance has the same rows, quantities and total, and in one commodity shows
    the very same. *)
Theorem C114_balance : forall E O A B fs, sane_clock E -> orders E -> filters_for E A fs -> (forall a, In a A <-> In a B) ->
  (r_status (balance_cmd E (with_args O B)) = SOk <-> r_status (balance_cmd E (with_args O A)) = SOk) /\
  (r_status (balance_cmd E (with_args O A)) = SOk -> exists ps ps' rows t, Permutation ps ps' /\ listed rows /\
     balance_cmd E (with_args O A) = Outcome (reported ps rows t) SOk /\ balance_cmd E (with_args O B) = Outcome (reported ps' rows t) SOk) /\
  (forall c, (forall t p, In (ETxn t p) (fst (stream E O)) -> Forall (fun p => po_amount p <> None -> commodity_of p = c) (t_postings t)) ->
     balance_cmd E (with_args O B) = balance_cmd E (with_args O A)).
Proof.
  intros E O A B fs C Or F Same. destruct (C114_possible E O A B fs Or F Same) as (o & Or' & K). specialize (K Balance ltac:(discriminate)). cbn [does] in K.
  destruct (C26_rows_partial E (with_args O B) o (e_tree_order E) C Or Or') as [St R]. rewrite K in St, R. split; [symmetry; exact St|]. split.
  - intro Ok. destruct (R (proj1 St Ok)) as (ps & ps' & rows & t & Pm & L & Q & Q'). exists ps', ps, rows, t. split; [now symmetry|]. split; [exact L|].
    pose proof (proj1 St Ok) as Ok'. destruct (balance_cmd E (with_args O A)), (balance_cmd E (with_args O B)). cbn in *. subst. auto.
  - intros c H. rewrite <- K. symmetry. apply (C26_one_commodity_partial E (with_args O B) o (e_tree_order E) c C Or Or'). exact H.
Qed.

(** The program. *)
Theorem C114_program : forall E L help_text library argv argv' c O A B fs, orders E -> filters_for E A fs -> (forall a, In a A <-> In a B) ->
  asks argv c (with_args O A) false -> asks argv' c (with_args O B) false -> (c = Payees -> Forall (fun a => e_re_ok E (case_text E a) = true) A) ->
  exists o, orders (with_orders E o (e_tree_order E)) /\
    gledger (with_orders E o (e_tree_order E)) L help_text library argv' = gledger E L help_text library argv.
Proof.
  intros E L ht lib argv argv' c O A B fs Or F Same As As' Hp. destruct (C114_possible E O A B fs Or F Same) as (o & Or' & K).
  exists o. split; [exact Or'|]. rewrite (proj1 (C79_flags_partial E L ht lib argv c _ false As) eq_refl).
  rewrite (proj1 (C79_flags_partial (with_orders E o (e_tree_order E)) L ht lib argv' c _ false As') eq_refl). f_equal. now apply K.
Qed.

(** Three arguments in another order, one of them twice. *)
Example C114_example : let E := env1 files3 in let O := opts3 [] [] false [] in let A := [lit "x"; lit "z"; lit "@a"] in
  let B := [lit "@a"; lit "z"; lit "x"; lit "z"] in
  orders E /\ (exists fs, filters_for E A fs /\ length fs = 3%nat) /\ (forall a, In a A <-> In a B) /\
  Forall (fun a => e_re_ok E (case_text E a) = true) A /\
  r_status (balance_cmd E (with_args O A)) = SOk /\ length (r_out (print_cmd E (with_args O A))) <> 0%nat /\
  r_out (print_cmd E (with_args O A)) <> r_out (print_cmd E (with_args O [lit "z"])).
Proof.
  cbn zeta. split; [apply env1_orders|]. split.
  { eexists. split; [apply makeFilters_spec; vm_compute; reflexivity|reflexivity]. }
  split; [intro a; cbn; tauto|]. split; [repeat constructor; vm_compute; reflexivity|]. split; [vm_compute; reflexivity|].
  split; vm_compute; discriminate.
Qed.
