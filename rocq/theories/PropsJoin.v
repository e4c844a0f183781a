(** * What commands show of printed, split and joined journals: C82, C83 *)
From Verif Require Import Base BaseFacts Utf8 Unicode GoTime Strconv Display Journal Lexer Parser ParserFacts Account JournalFacts TreeFacts
  Reporting Budget Cmd Spec TextSpec DateFacts AmountFacts CmdSpec CmdFacts ReportSpec TreeSpec FlatSpec FlatFacts IncludeFacts JournalText
  Sample PropsParser PropsCmd PropsBalance PropsPrint PropsReread PropsAge LineFacts PropsAgain PropsWhere PropsConcat.

(** ** C82: accounts and payees of what print printed *)
Lemma bytes_lt_irrefl : forall a, ~ bytes_lt a a.
Proof. induction a as [|x a IH]; intro H; inversion H; subst; [lia|auto]. Qed.
Lemma bytes_lt_trans : forall a b, bytes_lt a b -> forall c, bytes_lt b c -> bytes_lt a c.
Proof.
  induction 1 as [y b|x y a b L|x a b H IH]; intros c K; inversion K; subst;
    first [apply Shorter|solve [apply SameByte; auto]|apply SmallerByte; first [lia|assumption]].
Qed.
Lemma ascending_same : forall l l', ascending l -> ascending l' -> (forall x, In x l <-> In x l') -> l = l'.
Proof.
  intros l l' H. revert l'. induction H as [|a l S IH F]; intros l' H' E.
  - destruct l' as [|b l']; [reflexivity|]. destruct (proj2 (E b) (or_introl eq_refl)).
  - destruct l' as [|b l']; [destruct (proj1 (E a) (or_introl eq_refl))|]. inversion H' as [|? ? S' F']; subst.
    rewrite Forall_forall in F, F'.
    assert (a = b) as ->.
    { destruct (proj1 (E a) (or_introl eq_refl)) as [->|Ia]; [reflexivity|]. destruct (proj2 (E b) (or_introl eq_refl)) as [->|Ib]; [reflexivity|].
      destruct (bytes_lt_irrefl a). eapply bytes_lt_trans; eauto. }
    f_equal. apply IH; [exact S'|]. intro x. split; intro I.
    + destruct (proj1 (E x) (or_intror I)) as [->|K]; [destruct (bytes_lt_irrefl _ (F _ I))|exact K].
    + destruct (proj2 (E x) (or_intror I)) as [->|K]; [destruct (bytes_lt_irrefl _ (F' _ I))|exact K].
Qed.

(** Everything in the printed journal is in range. *)
Lemma range_all : forall E O ts p n sel, plain (with_args O []) -> Forall (fun t => 0 <= instant (t_date t)) ts ->
  in_range E O (txns n (map (fun t => ETxn t p) ts)) sel -> map u_txn sel = ts.
Proof.
  intros E O ts p n sel Pl F. revert n sel. induction F as [|t ts H F IH]; intros n sel P; cbn [map txns] in P.
  - now inversion P.
  - inversion P as [|? ? ? No P'|? ? ? W P']; subst.
    + exfalso. apply No. apply (plain_within E (with_args O []) n (t_date t) Pl H).
    + cbn [map u_txn]. f_equal. eapply IH; exact P'.
Qed.

Lemma reads_args : forall E O A text, reads E O text -> reads E (with_args O A) text.
Proof. intros E O A text H. exact H. Qed.

Lemma reread_in : forall ts ts', Forall2 reread ts ts' ->
  (forall t, In t ts -> exists t', In t' ts' /\ reread t t') /\ (forall t', In t' ts' -> exists t, In t ts /\ reread t t').
Proof.
  intros ts ts' H. induction H as [|t t' ts ts' R _ [A B]]; [split; intros ? []|]. split.
  - intros u [<-|I]; [exists t'; split; [now left|exact R]|]. destruct (A u I) as (u' & I' & R'). exists u'. split; [now right|exact R'].
  - intros u' [<-|I]; [exists t; split; [now left|exact R]|]. destruct (B u' I) as (u & I' & R'). exists u. split; [now right|exact R'].
Qed.
Lemma reread_accounts : forall t t', reread t t' -> map po_account (t_postings t') = map po_account (t_postings t).
Proof. intros t t' [_ _ _ _ _ _ R]. induction R as [|p p' ps ps' (A & _) _ IH]; [reflexivity|]. cbn. now rewrite A, IH. Qed.

(** Listing the accounts, or the payees, of the printed transactions with any
    arguments is listing those of the journal. *)
Theorem C82_listings : forall E O A fs sel out E' O', sane_clock E -> orders E -> sorts E ->
  picks E (with_args O []) [] (txns 0 (fst (stream E O))) sel -> print_cmd E (with_args O []) = Outcome out SOk ->
  Forall legible (selected sel) -> Forall (fun t => 0 <= instant (t_date t)) (selected sel) ->
  filters_for E A fs -> Forall (fun a => e_re_ok E (case_text E a) = true) A ->
  sane_clock E' -> orders E' -> e_unicode E' = e_unicode E -> e_re_match E' = e_re_match E -> e_re_ok E' = e_re_ok E ->
  plain (with_args O' []) -> reads E' O' (concat out) ->
  accounts_cmd E' (with_args O' A) = accounts_cmd E (with_args O A) /\
  payees_cmd E' (with_args O' A) = payees_cmd E (with_args O A).
Proof.
  intros E O A fs sel out E' O' C Or So P Q R Y F Ok C' Or' U Rm Ro Pl Rd.
  assert (F0 : filters_for E (o_args (with_args O [])) []) by (split; constructor).
  pose proof (print_ok E (with_args O []) [] C Or F0 (f_equal r_status Q)) as Re.
  destruct (C42_print E (with_args O []) [] C Or So F0) as [K _]. destruct (K Re) as (sel0 & ts & P0 & Pm & S & Q0). clear K.
  rewrite Q in Q0. inversion Q0; subst out. clear Q0. rewrite (picks_selected _ _ _ _ _ _ P0 P) in Pm.
  destruct (reprinted_stream E (with_args O []) [] sel E' O' ts P Pm R U Rd) as (p & ts2 & Rr & St).
  assert (St' : stream E' (with_args O' A) = (map (fun t => ETxn t p) ts2, SOk)) by exact St.
  assert (Re' : CmdSpec.readable E' (with_args O' A)).
  { split; [now rewrite St'|]. apply Forall_forall. intros u _. apply (plain_flags E' (with_args O' []) (u_n u) Pl). }
  assert (Y' : Forall (fun t => 0 <= instant (t_date t)) ts2).
  { apply (reread_dated (fun d => 0 <= instant d) _ _ Rr). eapply Permutation_Forall; [symmetry; exact Pm|exact Y]. }
  assert (ReA : CmdSpec.readable E (with_args O A)) by exact Re.
  destruct (picks_range _ _ _ _ P) as [Rg _].
  assert (RgA : in_range E (with_args O A) (txns 0 (fst (stream E O))) (map fst sel)).
  { clear -Rg. change (fst (stream E (with_args O []))) with (fst (stream E O)) in Rg. induction Rg; [constructor|apply RangeOut|apply RangeIn]; assumption. }
  assert (Ct : forall a, case_text E' a = case_text E a) by (intro; unfold case_text; now rewrite U).
  assert (F' : filters_for E' A fs).
  { destruct F as [F1 F2]. split.
    - clear - F1 Ct. induction F1 as [|a f A fs H _ IH]; constructor; [|exact IH]. destruct H as [a|a|a H1 H2 H3]; rewrite <- Ct; constructor; assumption.
    - now rewrite Ro. }
  assert (M : forall t, (exists u, In u (map fst sel) /\ u_txn u = t) <-> In t ts).
  { intro t. rewrite (Permutation_in' eq_refl Pm). unfold selected. rewrite in_map_iff. split.
    - intros (u & I & <-). apply in_map_iff in I as (x & <- & I). eauto.
    - intros (x & <- & I). exists (fst x). split; [now apply in_map|reflexivity]. }
  split.
  - destruct (C40_accounts E (with_args O A) fs C Or F) as [K _]. destruct (K ReA) as (sel1 & n1 & R1 & -> & A1 & N1). clear K.
    destruct (C40_accounts E' (with_args O' A) fs C' Or' F') as [K _]. destruct (K Re') as (sel2 & n2 & R2 & -> & A2 & N2). clear K.
    f_equal. f_equal. apply ascending_same; [assumption..|]. intro a. rewrite N1, N2, Rm.
    rewrite (range_fun _ _ _ _ _ R1 RgA). rewrite St' in R2. pose proof (range_all E' (with_args O' A) _ _ _ _ Pl Y' R2) as T2.
    assert (X : uses sel2 a <-> uses (map fst sel) a); [|tauto]. unfold uses. split.
    + intros (u & q & I & J & E1). apply (in_map u_txn) in I. rewrite T2 in I. apply (proj2 (reread_in _ _ Rr)) in I as (t & I & Rt). apply M in I as (v & Iv & Ev).
      apply (in_map po_account) in J. rewrite (reread_accounts _ _ Rt), <- Ev in J. apply in_map_iff in J as (q' & Eq & J).
      exists v, q'. split; [exact Iv|]. split; [exact J|]. now rewrite Eq.
    + intros (u & q & I & J & E1). assert (In (u_txn u) ts) as I2 by (apply M; eauto). apply (proj1 (reread_in _ _ Rr)) in I2 as (t' & I2 & Rt). rewrite <- T2 in I2.
      apply in_map_iff in I2 as (v & Ev & Iv). apply (in_map po_account) in J. rewrite <- (reread_accounts _ _ Rt), <- Ev in J. apply in_map_iff in J as (q' & Eq & J).
      exists v, q'. split; [exact Iv|]. split; [exact J|]. now rewrite Eq.
  - destruct (C41_payees E (with_args O A) fs C Or F Ok) as [K _]. destruct (K ReA) as (sel1 & n1 & R1 & -> & A1 & N1). clear K.
    assert (Ok' : Forall (fun a => e_re_ok E' (case_text E' a) = true) A).
    { unfold case_text in *. rewrite U, Ro. exact Ok. }
    destruct (C41_payees E' (with_args O' A) fs C' Or' F' Ok') as [K _]. destruct (K Re') as (sel2 & n2 & R2 & -> & A2 & N2). clear K.
    f_equal. f_equal. apply ascending_same; [assumption..|]. intro a. rewrite N1, N2, Rm.
    rewrite (range_fun _ _ _ _ _ R1 RgA). rewrite St' in R2. pose proof (range_all E' (with_args O' A) _ _ _ _ Pl Y' R2) as T2.
    assert (X : pays sel2 a <-> pays (map fst sel) a).
    { unfold pays. split.
      + intros (u & I & E1). apply (in_map u_txn) in I. rewrite T2 in I. apply (proj2 (reread_in _ _ Rr)) in I as (t & I & Rt). apply M in I as (v & Iv & Ev).
        exists v. split; [exact Iv|]. rewrite Ev, <- (rr_payee _ _ Rt). exact E1.
      + intros (u & I & E1). assert (In (u_txn u) ts) as I2 by (apply M; eauto). apply (proj1 (reread_in _ _ Rr)) in I2 as (t' & I2 & Rt). rewrite <- T2 in I2.
        apply in_map_iff in I2 as (v & Ev & Iv). exists v. split; [exact Iv|]. rewrite Ev, (rr_payee _ _ Rt). exact E1. }
    cbn [o_args with_args]. split; (intros [H1 H2]; split; [now apply X|]; destruct H2 as [H2|(y & Iy & H2)]; [now left|right; exists y; split; [exact Iy|]; now rewrite ?Ct in *]).
Qed.

(** C71 with arguments: the balance with any arguments is the balance, with the same
    arguments, of the journal printed with them.  Missing: as for
    [C71_balance_of_print_partial]. *)
Lemma taken_hits : forall E O fs us sel, picks E O fs us sel -> Permutation (taken sel) (flat_map (hits E fs) (selected sel)).
Proof.
  intros E O fs us sel P. induction P as [|u us sel No _ IH|u us sel ps W Ht P Wh _ IH]; [constructor|exact IH|].
  unfold taken, selected in *. cbn [map flat_map fst snd]. now apply Permutation_app.
Qed.
Lemma hits_in : forall E fs t p, In p (hits E fs t) -> In p (t_postings t).
Proof. intros E fs t p. unfold hits. destruct fs; [auto|]. destruct (whole_hit _ _ _); [auto|]. intro I. now apply filter_In in I. Qed.

Lemma printed_hits : forall E O fs sel out E' O', sane_clock E -> orders E -> sorts E -> filters_for E (o_args O) fs ->
  picks E O fs (txns 0 (fst (stream E O))) sel -> print_cmd E O = Outcome out SOk ->
  Forall reprintable (selected sel) -> Forall (fun t => 0 <= instant (t_date t)) (selected sel) ->
  e_unicode E' = e_unicode E -> e_re_match E' = e_re_match E -> e_re_ok E' = e_re_ok E ->
  plain (with_args O' []) -> o_args O' = o_args O -> reads E' O' (concat out) ->
  CmdSpec.readable E O /\ CmdSpec.readable E' O' /\ filters_for E' (o_args O') fs /\ Forall priced (taken sel) /\
  exists sel', picks E' O' fs (txns 0 (fst (stream E' O'))) sel' /\ Permutation (taken sel) (taken sel').
Proof.
  intros E O fs sel out E' O' C Or So F P Q R Y U Rm Ro Pl Ar Rd.
  pose proof (print_ok E O fs C Or F (f_equal r_status Q)) as Re.
  destruct (C42_print E O fs C Or So F) as [K _]. destruct (K Re) as (sel0 & ts & P0 & Pm & S & Q0). clear K.
  rewrite Q in Q0. inversion Q0; subst out. clear Q0. rewrite (picks_selected _ _ _ _ _ _ P0 P) in Pm.
  destruct (printed_stream E O fs sel E' O' ts P Pm R U Rd) as (p & St).
  assert (Re' : CmdSpec.readable E' O').
  { split; [now rewrite St|]. apply Forall_forall. intros u _. apply (plain_flags E' (with_args O' []) (u_n u) Pl). }
  assert (Ct : forall a, case_text E' a = case_text E a) by (intro; unfold case_text; now rewrite U).
  assert (F' : filters_for E' (o_args O') fs).
  { rewrite Ar. destruct F as [F1 F2]. split.
    - clear - F1 Ct. induction F1 as [|a f A fs H _ IH]; constructor; [|exact IH]. destruct H as [a|a|a H1 H2 H3]; rewrite <- Ct; constructor; assumption.
    - now rewrite Ro. }
  assert (Y' : Forall (fun t => 0 <= instant (t_date t) /\ hit E' fs t = true) (map written_out ts)).
  { apply Forall_forall. intros t I. apply in_map_iff in I as (t0 & <- & I). apply (Permutation_in _ Pm) in I.
    rewrite Forall_forall in Y. split; [now apply (Y t0)|].
    apply in_map_iff in I as ([u ps] & <- & I). apply (picks_in _ _ _ _ _ _ _ P) in I as (_ & _ & H & _).
    unfold hit, whole_hit, posting_hit in *. cbn [fst u_txn written_out t_payee t_headernote t_notes t_postings] in *. rewrite Rm. exact H. }
  assert (Ex : exists sel', picks E' O' fs (txns 0 (fst (stream E' O'))) sel' /\ selected sel' = map written_out ts).
  { rewrite St. cbn [fst]. clear - Pl Y'. revert Y'. generalize (map written_out ts), 0%nat. induction l as [|t l IH]; intros n Y; [exists []; split; [constructor|reflexivity]|].
    inversion_clear Y as [|? ? Yt Y1]. destruct Yt as [Yt Ht]. destruct (IH (Datatypes.S n) Y1) as (sel' & P & Sl). exists ((Used n t p, hits E' fs t) :: sel'). cbn [map txns].
    split; [|unfold selected in *; cbn; now rewrite Sl].
    apply PickIt; [|exact Ht|reflexivity| |exact P].
    - apply (plain_within E' (with_args O' []) n (t_date t) Pl Yt).
    - cbn. unfold hits. destruct fs; [reflexivity|]. intros [X| ->]; [discriminate|reflexivity]. }
  destruct Ex as (sel' & P' & Sl).
  pose proof (taken_hits _ _ _ _ _ P) as T0. pose proof (taken_hits _ _ _ _ _ P') as T1. rewrite Sl in T1.
  assert (T2 : flat_map (hits E' fs) (map written_out ts) = flat_map (hits E fs) ts).
  { rewrite !flat_map_concat_map, map_map. f_equal. apply map_ext. intro t. unfold hits, whole_hit, posting_hit. rewrite Rm. reflexivity. }
  rewrite T2 in T1.
  assert (In' : forall q, In q (taken sel) -> exists t, In t (selected sel) /\ In q (t_postings t)).
  { intros q I. apply (Permutation_in _ T0) in I. apply in_flat_map in I as (t & I & J). exists t. split; [exact I|]. now apply hits_in in J. }
  split; [exact Re|]. split; [exact Re'|]. split; [exact F'|]. split.
  - apply Forall_forall. intros q I. apply In' in I as (t & I & J). rewrite Forall_forall in R.
    destruct (R t I) as [Am _ _ _ _]. rewrite Forall_forall in Am. destruct (Am q J) as (cc & x & E1 & _). unfold priced. congruence.
  - exists sel'. split; [exact P'|]. rewrite T0, T1. apply flat_map_perm. now symmetry.
Qed.

Theorem C71_arguments_partial : forall c E O fs sel out E' O', sane_clock E -> orders E -> sorts E -> filters_for E (o_args O) fs ->
  picks E O fs (txns 0 (fst (stream E O))) sel -> print_cmd E O = Outcome out SOk ->
  Forall reprintable (selected sel) -> Forall (fun t => 0 <= instant (t_date t)) (selected sel) ->
  Forall (fun t => uniform c (t_postings t)) (selected sel) ->
  sane_clock E' -> orders E' -> e_unicode E' = e_unicode E -> e_re_match E' = e_re_match E -> e_re_ok E' = e_re_ok E ->
  plain (with_args O' []) -> o_args O' = o_args O -> reads E' O' (concat out) ->
  o_flatten O' = o_flatten O -> o_collapse O' = o_collapse O -> o_show_zero O' = o_show_zero O ->
  balance_cmd E' O' = balance_cmd E O.
Proof.
  intros c E O fs sel out E' O' C Or So F P Q R Y Un C' Or' U Rm Ro Pl Ar Rd Ofl Oc Oz.
  destruct (printed_hits E O fs sel out E' O' C Or So F P Q R Y U Rm Ro Pl Ar Rd) as (Re & Re' & F' & Pr & sel' & P' & T).
  apply (balance_perm c E O fs sel E' O' fs sel'); auto; [|now apply Permutation_map].
  apply Forall_forall. intros q I. apply (Permutation_in _ (taken_hits _ _ _ _ _ P)) in I. apply in_flat_map in I as (t & I & J). apply hits_in in J.
  rewrite Forall_forall in Un. specialize (Un t I). unfold uniform in Un. rewrite Forall_forall in Un. now apply Un.
Qed.

Example C71_arguments_example :
  let E := env1 [(lit "j", text_same)] in let O := with_args (opts0 "j") [lit "x"] in
  let out := r_out (print_cmd E O) in let E' := env1 [(lit "j", concat out)] in let fs := [Filter (lit "(?i)x") AccountNameFilter] in
  filters_for E (o_args O) fs /\
  (exists sel, picks E O fs (txns 0 (fst (stream E O))) sel /\ length (selected sel) = 1%nat /\ Forall reprintable (selected sel) /\
     Forall (fun t => 0 <= instant (t_date t)) (selected sel) /\ Forall (fun t => uniform (lit "$") (t_postings t)) (selected sel)) /\
  print_cmd E O = Outcome out SOk /\ plain (with_args O []) /\ reads E' O (concat out) /\
  balance_cmd E' O = Outcome [lit "               $3.50  x" ++ [10]; lit "--------------------" ++ [10]; lit "                3.50" ++ [10]] SOk.
Proof.
  cbn zeta. split; [apply makeFilters_spec; vm_compute; reflexivity|].
  split; [|split; [vm_compute; reflexivity|split; [apply plain0|split; [exists (lit "j"); split; vm_compute; reflexivity|vm_compute; reflexivity]]]].
  set (us := txns 0 (fst (stream (env1 [(lit "j", text_same)]) (with_args (opts0 "j") [lit "x"])))). vm_compute in us.
  match eval unfold us in us with [?u; ?v] => exists [(v, firstn 1 (t_postings (u_txn v)))] end.
  split; [|split; [reflexivity|split; [apply all_reprintable; vm_compute; reflexivity|split]]].
  - subst us. apply PickNot; [right; vm_compute; reflexivity|]. apply PickIt; [apply (plain_within _ (with_args (opts0 "j") [])); [apply plain0|vm_compute; discriminate]|vm_compute; reflexivity| | |apply PickNone].
    + vm_compute. reflexivity.
    + intros [X|X]; vm_compute in X; discriminate.
  - repeat (constructor; [vm_compute; discriminate|]). constructor.
  - repeat (constructor; [apply goodb_iff; vm_compute; reflexivity|]). constructor.
Qed.

Example C82_example :
  let E := env1 [(lit "j", text_same)] in let E' := env1 [(lit "j", print_text text_same)] in let O := opts0 "j" in
  (exists sel, picks E (with_args O []) [] (txns 0 (fst (stream E O))) sel /\ Forall legible (selected sel) /\
     Forall (fun t => 0 <= instant (t_date t)) (selected sel)) /\
  print_cmd E (with_args O []) = Outcome (r_out (print_cmd E O)) SOk /\ filters_for E [lit "x"] [Filter (lit "(?i)x") AccountNameFilter] /\
  plain (with_args O []) /\ reads E' O (concat (r_out (print_cmd E O))) /\
  accounts_cmd E' (with_args O [lit "x"]) = Outcome [lit "x" ++ [10]] SOk /\
  accounts_cmd E (with_args O [lit "x"]) = Outcome [lit "x" ++ [10]] SOk /\
  payees_cmd E' O = Outcome [lit "A" ++ [10]; lit "B" ++ [10]] SOk.
Proof.
  cbn zeta. split; [|split; [vm_compute; reflexivity|split; [|split; [apply plain0|split; [exists (lit "j"); split; vm_compute; reflexivity|split; [|split]; vm_compute; reflexivity]]]]].
  - set (us := txns 0 (fst (stream (env1 [(lit "j", text_same)]) (opts0 "j")))). vm_compute in us.
    exists (map (fun u => (u, t_postings (u_txn u))) us). split; [|split; [apply legibleb_ok; vm_compute; reflexivity|]].
    + subst us. cbn [map]. repeat (apply PickIt; [apply plain_within; [apply plain0|vm_compute; discriminate]|reflexivity|reflexivity|reflexivity|]). apply PickNone.
    + subst us. repeat (constructor; [vm_compute; discriminate|]). constructor.
  - apply makeFilters_spec. vm_compute. reflexivity.
Qed.

(** ** C83: balances add up *)

(** [t] is the tree that balance prints. *)
Definition balance_tree (E : env) (O : opts) (t : account) : Prop :=
  distinct t /\ exists notes d, node t [] d /\ r_out (balance_cmd E O) = notes ++
    [(if o_flatten O then FlattenedTree prepender t else Tree prepender (o_collapse O) t) ++ [10];
     lit "--------------------" ++ [10]; column [] (am_quantity (a_amount d)) ++ [10]].

(** The balance of an account in it. *)
Definition shows (t : account) (q : list str) (x : option Z) : Prop :=
  match x with Some x => exists d, node t q d /\ am_quantity (a_amount d) = x | None => forall d, ~ node t q d end.
Definition plus (x y : option Z) : option Z :=
  match x, y with Some a, Some b => Some (wrap64 (a + b)) | Some a, None => Some a | None, _ => y end.

Lemma shows_total : forall ps t, (forall q d, node t q d <-> (q = [] \/ shown true ps q) /\ holds ps q d) -> forall q,
  shows t q (if is_nil q || existsb (below q) ps then Some (wrap64 (total (filter (below q) ps))) else None).
Proof.
  intros ps t H q. destruct (is_nil q || existsb (below q) ps) eqn:Q; cbn [shows].
  - exists (AD (last q (lit "_root_")) (join [58] (visible q)) (Amount (first_commodity (filter (below q) ps)) (wrap64 (total (filter (below q) ps)))) (filter (here q) ps)).
    split; [|reflexivity]. apply H. split; [|split; reflexivity]. apply orb_true_iff in Q as [Q|Q]; [left; now destruct q|right].
    split; [|now left]. apply existsb_exists in Q as (p & I & B). exists p. split; [exact I|]. now apply prefixb_iff.
  - apply orb_false_iff in Q as [Q1 Q2]. intros d N. apply H in N as [[->|[(p & I & B) _]] _]; [discriminate|].
    assert (X : existsb (below q) ps = true) by (apply existsb_exists; exists p; split; [exact I|now apply prefixb_iff]). congruence.
Qed.

Lemma shows_joined : forall ps1 ps2 ps t1 t2 t, Permutation ps (ps1 ++ ps2) ->
  (forall q d, node t1 q d <-> (q = [] \/ shown true ps1 q) /\ holds ps1 q d) ->
  (forall q d, node t2 q d <-> (q = [] \/ shown true ps2 q) /\ holds ps2 q d) ->
  (forall q d, node t q d <-> (q = [] \/ shown true ps q) /\ holds ps q d) ->
  forall q, exists x y, shows t1 q x /\ shows t2 q y /\ shows t q (plus x y).
Proof.
  intros ps1 ps2 ps t1 t2 t Pm H1 H2 H q. do 2 eexists. split; [exact (shows_total ps1 t1 H1 q)|]. split; [exact (shows_total ps2 t2 H2 q)|].
  pose proof (shows_total ps t H q) as K. 
  assert (T : total (filter (below q) ps) = total (filter (below q) ps1) + total (filter (below q) ps2)).
  { rewrite (total_perm _ _ (filter_perm _ _ _ _ Pm)), filter_app. apply total_app. }
  assert (X : existsb (below q) ps = existsb (below q) ps1 || existsb (below q) ps2).
  { rewrite <- existsb_app. apply eq_true_iff_eq. rewrite !existsb_exists. split; intros (p & I & B); exists p; (split; [|exact B]).
    - eapply Permutation_in; eauto.
    - eapply Permutation_in; [symmetry; exact Pm|exact I]. }
  assert (Z : forall l, existsb (below q) l = false -> total (filter (below q) l) = 0).
  { intros l F. replace (filter (below q) l) with (@nil posting); [reflexivity|]. induction l as [|a l IH]; [reflexivity|]. cbn in *.
    apply orb_false_iff in F as [F1 F2]. rewrite F1. auto. }
  rewrite T, X in K. destruct (is_nil q); cbn [orb plus] in *.
  - now rewrite wrap64_add_l, wrap64_add_r.
  - destruct (existsb (below q) ps1) eqn:X1; destruct (existsb (below q) ps2) eqn:X2; cbn [orb plus] in *.
    + now rewrite wrap64_add_l, wrap64_add_r.
    + now rewrite (Z ps2 X2), Z.add_0_r in K.
    + now rewrite (Z ps1 X1), Z.add_0_l in K.
    + exact K.
Qed.

Lemma balance_shows : forall E O fs, sane_clock E -> orders E -> filters_for E (o_args O) fs -> o_show_zero O = true -> r_status (balance_cmd E O) = SOk ->
  exists sel t, picks E O fs (txns 0 (fst (stream E O))) sel /\ balance_tree E O t /\
    forall q d, node t q d <-> (q = [] \/ shown true (taken sel) q) /\ holds (taken sel) q d.
Proof.
  intros E O fs C Or F Z Ok. destruct (C61_balance E O fs C Or F) as [_ K]. destruct (K Ok) as (sel & t & P & D & H & Q). rewrite Z in H.
  assert (N : node t [] (acc_data t)) by now apply node_nil. destruct (proj1 (H _ _) N) as [_ Hh].
  exists sel, t. split; [exact P|]. split; [|exact H]. split; [exact D|]. exists (complaints [] (taken sel)), (acc_data t). split; [exact N|].
  rewrite Q, (h_quantity _ _ _ Hh). assert (X : forall l, filter (below []) l = l) by (induction l as [|x l IH]; [reflexivity|]; cbn; now rewrite IH).
  now rewrite X.
Qed.

Lemma taken_split : forall E O1 O2 O fs us, Forall (fun u => (within E O (u_n u) (t_date (u_txn u)) <->
    within E O1 (u_n u) (t_date (u_txn u)) \/ within E O2 (u_n u) (t_date (u_txn u))) /\
    ~ (within E O1 (u_n u) (t_date (u_txn u)) /\ within E O2 (u_n u) (t_date (u_txn u)))) us ->
  forall s1 s2 s, picks E O1 fs us s1 -> picks E O2 fs us s2 -> picks E O fs us s -> Permutation (taken s) (taken s1 ++ taken s2).
Proof.
  intros E O1 O2 O fs us F. induction F as [|u us [W N] F IH]; intros s1 s2 s P1 P2 P.
  - inversion P1; inversion P2; inversion P. constructor.
  - inversion P1 as [|? ? ? No1 Q1|? ? ? ps1 W1 Hh1 Pm1 Wh1 Q1]; subst; inversion P2 as [|? ? ? No2 Q2|? ? ? ps2 W2 Hh2 Pm2 Wh2 Q2]; subst;
      inversion P as [|? ? ? No Q|? ? ? ps W0 Hh0 Pm0 Wh0 Q]; subst; specialize (IH _ _ _ Q1 Q2 Q).
    + exact IH.
    + exfalso. destruct No1 as [No1|No1]; [|congruence]. destruct No2 as [No2|No2]; [|congruence]. tauto.
    + exfalso. destruct No as [No|No]; [tauto|congruence].
    + unfold taken in *. cbn [flat_map snd]. rewrite IH, Pm0, <- Pm2. rewrite !app_assoc. apply Permutation_app_tail. apply Permutation_app_comm.
    + exfalso. destruct No as [No|No]; [tauto|congruence].
    + unfold taken in *. cbn [flat_map snd]. rewrite IH, Pm0, <- Pm1. now rewrite app_assoc.
    + exfalso. tauto.
    + exfalso. tauto.
Qed.

Lemma priced_join : forall a b c, Permutation c (a ++ b) -> (Forall priced c <-> Forall priced a /\ Forall priced b).
Proof.
  intros a b c P. rewrite <- Forall_app. split; intro H; (eapply Permutation_Forall; [|exact H]); [exact P|now symmetry].
Qed.

(** The balances of two adjacent ranges of dates add up to those of both. *)
Theorem C83_ranges : forall E O a b c da db dc fs, sane_clock E -> orders E -> sorts E -> filters_for E (o_args O) fs ->
  o_current O = false -> o_show_zero O = true -> snd (stream E O) = SOk ->
  (forall n, flag_means (e_year E n) a da /\ flag_means (e_year E n) b db /\ flag_means (e_year E n) c dc) ->
  e_local E da <= e_local E db <= e_local E dc -> 0 < e_local E db ->
  (r_status (balance_cmd E (with_dates O a c)) = SOk <->
   r_status (balance_cmd E (with_dates O a b)) = SOk /\ r_status (balance_cmd E (with_dates O b c)) = SOk) /\
  (r_status (balance_cmd E (with_dates O a c)) = SOk ->
   exists t1 t2 t, balance_tree E (with_dates O a b) t1 /\ balance_tree E (with_dates O b c) t2 /\ balance_tree E (with_dates O a c) t /\
     forall q, exists x y, shows t1 q x /\ shows t2 q y /\ shows t q (plus x y)).
Proof.
  intros E O a b c da db dc fs C Or So F Cu Zo St Fl L Lb.
  assert (R : forall x y dx dy, (forall n, flag_means (e_year E n) x dx) -> (forall n, flag_means (e_year E n) y dy) -> CmdSpec.readable E (with_dates O x y)).
  { intros x y dx dy Hx Hy. split; [exact St|]. apply Forall_forall. intros u _. split; right; right; [exists dx; apply Hx|exists dy; apply Hy]. }
  assert (Fa : forall n, flag_means (e_year E n) a da) by apply Fl.
  assert (Fb : forall n, flag_means (e_year E n) b db) by apply Fl.
  assert (Fc : forall n, flag_means (e_year E n) c dc) by apply Fl.
  pose proof (R _ _ _ _ Fa Fb) as R1. pose proof (R _ _ _ _ Fb Fc) as R2. pose proof (R _ _ _ _ Fa Fc) as R0. clear R.
  assert (Sp : forall s1 s2 s, picks E (with_dates O a b) fs (txns 0 (fst (stream E O))) s1 -> picks E (with_dates O b c) fs (txns 0 (fst (stream E O))) s2 ->
    picks E (with_dates O a c) fs (txns 0 (fst (stream E O))) s -> Permutation (taken s) (taken s1 ++ taken s2)).
  { apply taken_split. apply Forall_forall. intros u _. exact (ranges_meet E O a b c da db dc (u_n u) (t_date (u_txn u)) C Cu Fa Fb Fc L Lb). }
  destruct (C42_print E (with_dates O a b) fs C Or So F) as [K1 _]. destruct (K1 R1) as (s1 & _ & P1 & _). clear K1.
  destruct (C42_print E (with_dates O b c) fs C Or So F) as [K2 _]. destruct (K2 R2) as (s2 & _ & P2 & _). clear K2.
  destruct (C42_print E (with_dates O a c) fs C Or So F) as [K _]. destruct (K R0) as (s & _ & P & _). clear K.
  assert (B : r_status (balance_cmd E (with_dates O a c)) = SOk <->
   r_status (balance_cmd E (with_dates O a b)) = SOk /\ r_status (balance_cmd E (with_dates O b c)) = SOk).
  { rewrite (proj1 (C61_balance E (with_dates O a c) fs C Or F)), (proj1 (C61_balance E (with_dates O a b) fs C Or F)), (proj1 (C61_balance E (with_dates O b c) fs C Or F)).
    split.
    - intros [_ (z & Pz & Hz)]. apply (priced_join _ _ _ (Sp _ _ _ P1 P2 Pz)) in Hz as [Z1 Z2]. eauto 9.
    - intros [[_ (z1 & Pz1 & Z1)] [_ (z2 & Pz2 & Z2)]]. split; [exact R0|]. exists s. split; [exact P|]. apply (priced_join _ _ _ (Sp _ _ _ Pz1 Pz2 P)). auto. }
  split; [exact B|]. intro Ok. pose proof (proj1 B Ok) as [Ok1 Ok2].
  destruct (balance_shows _ (with_dates O a b) fs C Or F Zo Ok1) as (z1 & t1 & Q1 & T1 & H1).
  destruct (balance_shows _ (with_dates O b c) fs C Or F Zo Ok2) as (z2 & t2 & Q2 & T2 & H2).
  destruct (balance_shows _ (with_dates O a c) fs C Or F Zo Ok) as (z & t & Q & T & H).
  exists t1, t2, t. split; [exact T1|]. split; [exact T2|]. split; [exact T|]. exact (shows_joined _ _ _ _ _ _ (Sp _ _ _ Q1 Q2 Q) H1 H2 H).
Qed.

(** ** Journals put end to end *)

(** The machine [E] with the text [a] in the file [p]. *)
Definition holding (E : env) (p a : str) : env :=
  Env (e_unicode E) (fun q => if str_eqb q p then Some (File a false) else e_fs E q) (e_depth E) (e_ledger_file E) (e_re_ok E) (e_re_match E)
    (e_year E) (e_tomorrow E) (e_local E) (e_order E) (e_tree_order E) (e_sort E) (e_now E).

(** The day does not change while the command runs. *)
Definition steady (E : env) : Prop := forall n, e_year E n = e_year E 0 /\ e_tomorrow E n = e_tomorrow E 0.

Section Elsewhere.
Variable U : unicode.
Variables fs fs' : str -> option file.
Variable p : str.
Hypothesis Same : forall q, q <> p -> fs q = fs' q.

Lemma tag_lines_ext : forall inc inc' top hint bad ls cur,
  (forall l q, In (Line l) ls -> included U hint l = Some q -> inc q = inc' q) ->
  tag_lines U inc top cur hint bad ls = tag_lines U inc' top cur hint bad ls.
Proof.
  intros inc inc' top hint bad. induction ls as [|[l|] ls IH]; intros cur H; cbn [tag_lines]; [reflexivity| |reflexivity].
  destruct (included U hint l) as [q|] eqn:I.
  - rewrite (H l q (or_introl eq_refl) I). f_equal. apply IH. intros l' q' I'. apply H. now right.
  - f_equal. apply IH. intros l' q' I'. apply H. now right.
Qed.

Lemma reads_trans : forall g a b c, FlatSpec.reads U g a b -> FlatSpec.reads U g b c -> FlatSpec.reads U g a c.
Proof. intros g a b c R1 R2. induction R2 as [|q f l q' f' R2 IH I Q Ef]; [exact R1|]. eapply reads_include; eassumption. Qed.

(** A file that is never reached does not matter. *)
Lemma tag_elsewhere : forall depth top h f, no_stop (expand U fs depth h f) ->
  (forall f', fs p = Some f' -> ~ reads_again U fs (h, f) (p, f')) -> tag U fs depth top h f = tag U fs' depth top h f.
Proof.
  induction depth as [|d IH]; intros top h f N R; destruct (no_stop_include U fs _ _ _ N) as (_ & _ & K); cbn [tag];
    apply tag_lines_ext; intros l q I Q; [reflexivity|].
  destruct (K l q I Q) as (d' & f' & Ed & Ef & N'). injection Ed as <-.
  assert (Nq : q <> p).
  { intros ->. apply (R f' Ef). exists l, p, f'. split; [exact I|]. split; [exact Q|]. split; [exact Ef|]. apply reads_self. }
  rewrite <- (Same q Nq), Ef. apply IH; [exact N'|]. intros g Eg (l2 & p2 & f2 & I2 & Q2 & E2 & R2).
  apply (R g Eg). exists l, q, f'. split; [exact I|]. split; [exact Q|]. split; [exact Ef|].
  cbn [fst snd] in *. eapply reads_trans; [|exact R2]. eapply reads_include; [apply reads_self|exact I2|exact Q2|exact E2].
Qed.

Lemma trace_elsewhere : forall depth h f, snd (trace U fs depth h f) = SOk ->
  (forall f', fs p = Some f' -> ~ reads_again U fs (h, f) (p, f')) -> trace U fs' depth h f = trace U fs depth h f.
Proof.
  intros depth h f Ok R. pose proof (entries_ok_no_stop _ _ _ _ _ (proj1 (trace_ok_entries _ _ _ _ _) Ok)) as N.
  pose proof (tag_elsewhere depth h h f N R) as T.
  assert (Ok' : snd (trace U fs' depth h f) = SOk).
  { apply trace_ok_entries. apply trace_ok_entries in Ok. unfold entries in *.
    rewrite <- (tag_expand U fs' depth h h f), <- T, (tag_expand U fs depth h h f). exact Ok. }
  apply injective_projections; [|congruence]. rewrite !C20_exact. now rewrite T.
Qed.
End Elsewhere.

Lemma readable_dec : forall E O (fs : list filter_), sane_clock E -> orders E -> CmdSpec.readable E O \/ ~ CmdSpec.readable E O.
Proof.
  intros E O fs C Or. pose proof (print_run_spec E O fs C Or) as K. destruct (print_run E O fs) as [s [| | | |]]; [left|right..]; apply K.
Qed.

Section Joined.
Variable E : env.
Variable O : opts.
Variables p a b : str.
Hypothesis Path : journal_path E O = Some p.
Hypothesis Start : line_start a.
Let E1 := holding E p a.
Let E2 := holding E p b.
Let E3 := holding E p (a ++ LF :: b).

Lemma holding_stream : forall x, stream (holding E p x) O = trace (e_unicode E) (e_fs (holding E p x)) (e_depth E) p (File x false).
Proof. intro x. unfold stream. change (journal_path (holding E p x) O) with (journal_path E O). rewrite Path. cbn. now rewrite str_eqb_refl. Qed.
Lemma holding_at : forall x, e_fs (holding E p x) p = Some (File x false).
Proof. intro x. cbn. now rewrite str_eqb_refl. Qed.
Lemma holding_off : forall x y q, q <> p -> e_fs (holding E p x) q = e_fs (holding E p y) q.
Proof. intros x y q N. cbn. destruct (str_eqb q p) eqn:Q; [apply str_eqb_eq in Q; contradiction|reflexivity]. Qed.

Lemma ok_no_cycle : forall x, snd (stream (holding E p x) O) = SOk ->
  ~ reads_again (e_unicode E) (e_fs (holding E p x)) (p, File x false) (p, File x false).
Proof.
  intros x Ok R. rewrite holding_stream in Ok. apply trace_ok_entries, entries_ok_no_stop in Ok.
  exact (cycle_never_ok _ _ _ _ (reads_self _ _ _) R _ Ok).
Qed.

Lemma moved : forall x y, snd (stream (holding E p x) O) = SOk ->
  trace (e_unicode E) (e_fs (holding E p y)) (e_depth E) p (File x false) = stream (holding E p x) O.
Proof.
  intros x y Ok. pose proof (ok_no_cycle x Ok) as N. rewrite holding_stream in *.
  apply (trace_elsewhere _ _ _ p (holding_off x y)); [exact Ok|]. intros f'. rewrite holding_at. intro Q. now injection Q as <-.
Qed.

Lemma joined_lines : file_lines (a ++ LF :: b) = file_lines a ++ Line [] :: file_lines b.
Proof.
  rewrite (file_lines_start a (LF :: b) Start). f_equal.
Qed.

Lemma joined_stream :
  (snd (stream E3 O) = SOk <-> snd (stream E1 O) = SOk /\ snd (stream E2 O) = SOk) /\
  (snd (stream E3 O) = SOk -> fst (stream E3 O) = fst (stream E1 O) ++ fst (stream E2 O)).
Proof.
  assert (Fwd : snd (stream E1 O) = SOk -> snd (stream E2 O) = SOk ->
    snd (stream E3 O) = SOk /\ fst (stream E3 O) = fst (stream E1 O) ++ fst (stream E2 O)).
  { unfold E1, E2, E3. intros Ok1 Ok2. pose proof (moved a (a ++ LF :: b) Ok1) as M1. pose proof (moved b (a ++ LF :: b) Ok2) as M2.
    rewrite <- M1, <- M2. rewrite <- M1 in Ok1. rewrite <- M2 in Ok2. rewrite holding_stream. split; [|now apply C75_attribution]. apply (proj1 (C75_concatenation _ _ _ _ a b Start)). auto. }
  assert (B : snd (stream E3 O) = SOk -> snd (stream E1 O) = SOk /\ snd (stream E2 O) = SOk).
  { intro Ok. pose proof (ok_no_cycle _ Ok) as N. pose proof Ok as Ok'. unfold E3 in Ok'. rewrite holding_stream in Ok'.
    apply (proj1 (C75_concatenation _ _ _ _ a b Start)) in Ok' as [Ka Kb].
    assert (Sub : forall x, (forall l, In l (file_lines x) -> In l (file_lines (a ++ LF :: b))) ->
      snd (trace (e_unicode E) (e_fs E3) (e_depth E) p (File x false)) = SOk -> snd (stream (holding E p x) O) = SOk).
    { intros x Sb K. rewrite holding_stream.
      rewrite (trace_elsewhere _ _ _ p (holding_off (a ++ LF :: b) x)); [exact K|exact K|].
      intros f' Q (l & q & f & I & Hi & Hf & R). rewrite holding_at in Q. injection Q as <-. apply N. exists l, q, f.
      split; [apply Sb; exact I|]. auto. }
    split; apply Sub; auto; intros l I; rewrite joined_lines; apply in_app_iff; [now left|right; now right]. }
  split; [split; [exact B|intros [K1 K2]; now apply Fwd]|]. intro Ok. destruct (B Ok). now apply Fwd.
Qed.

(** What is selected. *)
Lemma txns_app : forall e1 e2 n, exists m, txns n (e1 ++ e2) = txns n e1 ++ txns m e2.
Proof.
  induction e1 as [|[t q|t q] e1 IH]; intros e2 n; cbn [app txns].
  - now exists n.
  - destruct (IH e2 (Datatypes.S n)) as (m & ->). now exists m.
  - apply IH.
Qed.
Lemma txns_same : forall es n m, map u_txn (txns n es) = map u_txn (txns m es).
Proof. induction es as [|[t q|t q] es IH]; intros n m; cbn; [reflexivity| |apply IH]. f_equal. apply IH. Qed.
Lemma picks_holding : forall x fs us sel, picks E O fs us sel <-> picks (holding E p x) O fs us sel.
Proof. intros x fs us sel. split; intro P; (induction P as [|u us sel No _ IH|u us sel ps W Ht Pm Wh _ IH]; [constructor|apply PickNot|apply PickIt]; auto). Qed.
Lemma range_holding : forall x us sel, in_range E O us sel <-> in_range (holding E p x) O us sel.
Proof. intros x us sel. split; intro P; (induction P as [|u us sel No _ IH|u us sel W _ IH]; [constructor|apply RangeOut|apply RangeIn]; auto). Qed.

Hypothesis Steady : steady E.
Lemma within_steady : forall n m d, within E O n d <-> within E O m d.
Proof.
  intros n m d. unfold within, starts_before, ends_after. rewrite (proj1 (Steady (2 * n)%nat)), (proj1 (Steady (2 * n + 1)%nat)), (proj1 (Steady (2 * m)%nat)), (proj1 (Steady (2 * m + 1)%nat)), (proj2 (Steady n)), (proj2 (Steady m)). reflexivity.
Qed.
Lemma flags_steady : forall n m, good_flags E O n <-> good_flags E O m.
Proof. intros n m. unfold good_flags, good_flag. rewrite (proj1 (Steady (2 * n)%nat)), (proj1 (Steady (2 * n + 1)%nat)), (proj1 (Steady (2 * m)%nat)), (proj1 (Steady (2 * m + 1)%nat)). reflexivity. Qed.

Lemma picks_renumber : forall fs us sel, picks E O fs us sel -> forall us', map u_txn us = map u_txn us' ->
  exists sel', picks E O fs us' sel' /\ selected sel' = selected sel /\ taken sel' = taken sel.
Proof.
  intros fs us sel P. induction P as [|u us sel No _ IH|u us sel ps W Ht Pm Wh _ IH]; intros us' Q; (destruct us' as [|u' us']; [discriminate|]) || (destruct us'; [|discriminate]).
  - exists []. repeat split; constructor.
  - injection Q as Qu Q. destruct (IH _ Q) as (sel' & P' & S' & T'). exists sel'. split; [|auto]. apply PickNot; [|exact P']. rewrite <- Qu.
    destruct No as [No|No]; [left; now rewrite (within_steady (u_n u') (u_n u))|now right].
  - injection Q as Qu Q. destruct (IH _ Q) as (sel' & P' & S' & T'). exists ((u', ps) :: sel'). split.
    + apply PickIt; try rewrite <- Qu; auto. now rewrite (within_steady (u_n u') (u_n u)).
    + unfold selected, taken in *. cbn. now rewrite S', T', Qu.
Qed.
Lemma range_renumber : forall us sel, in_range E O us sel -> forall us', map u_txn us = map u_txn us' ->
  exists sel', in_range E O us' sel' /\ map u_txn sel' = map u_txn sel.
Proof.
  intros us sel P. induction P as [|u us sel No _ IH|u us sel W _ IH]; intros us' Q; (destruct us' as [|u' us']; [discriminate|]) || (destruct us'; [|discriminate]).
  - exists []. repeat split; constructor.
  - injection Q as Qu Q. destruct (IH _ Q) as (sel' & P' & S'). exists sel'. split; [|auto]. apply RangeOut; [|exact P']. rewrite <- Qu.
    now rewrite (within_steady (u_n u') (u_n u)).
  - injection Q as Qu Q. destruct (IH _ Q) as (sel' & P' & S'). exists (u' :: sel'). split.
    + apply RangeIn; [|exact P']. rewrite <- Qu. now rewrite (within_steady (u_n u') (u_n u)).
    + cbn. now rewrite S', Qu.
Qed.
Lemma picks_append : forall fs us1 s1 us2 s2, picks E O fs us1 s1 -> picks E O fs us2 s2 -> picks E O fs (us1 ++ us2) (s1 ++ s2).
Proof. intros fs us1 s1 us2 s2 P1 P2. induction P1; cbn; [exact P2|apply PickNot|apply PickIt]; auto. Qed.
Lemma range_append : forall us1 s1 us2 s2, in_range E O us1 s1 -> in_range E O us2 s2 -> in_range E O (us1 ++ us2) (s1 ++ s2).
Proof. intros us1 s1 us2 s2 P1 P2. induction P1; cbn; [exact P2|apply RangeOut|apply RangeIn]; auto. Qed.

Lemma joined_picks : forall fs s1 s2 s, snd (stream E3 O) = SOk ->
  picks E1 O fs (txns 0 (fst (stream E1 O))) s1 -> picks E2 O fs (txns 0 (fst (stream E2 O))) s2 -> picks E3 O fs (txns 0 (fst (stream E3 O))) s ->
  selected s = selected s1 ++ selected s2 /\ Permutation (taken s) (taken s1 ++ taken s2).
Proof.
  intros fs s1 s2 s Ok P1 P2 P. rewrite (proj2 joined_stream Ok) in P. apply picks_holding in P1, P2, P.
  destruct (txns_app (fst (stream E1 O)) (fst (stream E2 O)) 0) as (m & Q). rewrite Q in P.
  destruct (picks_renumber _ _ _ P2 (txns m (fst (stream E2 O))) (txns_same _ _ _)) as (s2' & P2' & S2 & T2).
  pose proof (picks_same _ _ _ _ _ _ (picks_append _ _ _ _ _ P1 P2') P) as F. rewrite <- S2, <- T2.
  unfold selected, taken in *. rewrite <- map_app, <- flat_map_app. clear - F.
  induction F as [|x y l l' [Q1 Q2] F [IH1 IH2]]; [now split|]. cbn. split; [now rewrite Q1, IH1|].
  apply Permutation_app; [now symmetry|exact IH2].
Qed.
Lemma joined_range : forall s1 s2 s, snd (stream E3 O) = SOk ->
  in_range E1 O (txns 0 (fst (stream E1 O))) s1 -> in_range E2 O (txns 0 (fst (stream E2 O))) s2 -> in_range E3 O (txns 0 (fst (stream E3 O))) s ->
  map u_txn s = map u_txn s1 ++ map u_txn s2.
Proof.
  intros s1 s2 s Ok P1 P2 P. rewrite (proj2 joined_stream Ok) in P. apply range_holding in P1, P2, P.
  destruct (txns_app (fst (stream E1 O)) (fst (stream E2 O)) 0) as (m & Q). rewrite Q in P.
  destruct (range_renumber _ _ P2 (txns m (fst (stream E2 O))) (txns_same _ _ _)) as (s2' & P2' & S2).
  rewrite (range_fun _ _ _ _ _ P (range_append _ _ _ _ P1 P2')). now rewrite map_app, S2.
Qed.
Lemma joined_readable : CmdSpec.readable E3 O <-> CmdSpec.readable E1 O /\ CmdSpec.readable E2 O.
Proof.
  unfold CmdSpec.readable. rewrite (proj1 joined_stream).
  assert (K : forall x es n, Forall (fun u => good_flags (holding E p x) O (u_n u)) (txns n es) <-> (txns 0 es = [] \/ good_flags E O 0)).
  { intros x es n. pose proof (txns_same es n 0) as M. rewrite Forall_forall. destruct (txns n es) as [|u us] eqn:Q.
    - destruct (txns 0 es); [|discriminate]. split; [now left|]. intros _ u [].
    - destruct (txns 0 es); [discriminate|]. split.
      + intro H. right. apply (flags_steady 0 (u_n u)). exact (H u (or_introl eq_refl)).
      + intros [H|H]; [discriminate|]. intros v _. exact (proj1 (flags_steady 0 (u_n v)) H). }
  rewrite (K a (fst (stream E1 O)) 0%nat : Forall (fun u => good_flags E1 O (u_n u)) _ <-> _).
  rewrite (K b (fst (stream E2 O)) 0%nat : Forall (fun u => good_flags E2 O (u_n u)) _ <-> _).
  rewrite (K (a ++ LF :: b) (fst (stream E3 O)) 0%nat : Forall (fun u => good_flags E3 O (u_n u)) _ <-> _). split.
  - intros [[K1 K2] H]. rewrite (proj2 joined_stream) in H by (now apply joined_stream).
    destruct H as [H|H]; [|tauto]. destruct (txns_app (fst (stream E1 O)) (fst (stream E2 O)) 0) as (m & Q). rewrite Q in H.
    apply app_eq_nil in H as [H1 H2]. pose proof (txns_same (fst (stream E2 O)) 0 m) as M. rewrite H2 in M.
    split; [auto|]. split; [exact K2|]. left. destruct (txns 0 (fst (stream E2 O))); [reflexivity|discriminate].
  - intros [[K1 H1] [K2 H2]]. split; [auto|]. destruct H1 as [H1|H1]; [|now right]. destruct H2 as [H2|H2]; [|now right]. left.
    rewrite (proj2 joined_stream) by (now apply joined_stream). destruct (txns_app (fst (stream E1 O)) (fst (stream E2 O)) 0) as (m & ->).
    rewrite H1. pose proof (txns_same (fst (stream E2 O)) m 0) as M. rewrite H2 in M. cbn. destruct (txns m (fst (stream E2 O))); [reflexivity|discriminate].
Qed.

Hypothesis Clock : sane_clock E.
Hypothesis Orders : orders E.
Variable fs : list filter_.
Hypothesis Filters : filters_for E (o_args O) fs.
Lemma holding_filters : forall x, filters_for (holding E p x) (o_args O) fs.
Proof.
  intro x. destruct Filters as [F G]. split; [|exact G]. clear - F. induction F as [|s f l l' H F IH]; [constructor|]. constructor; [|exact IH].
  destruct H as [t|t|t N1 N2 N3]; [exact (ForPayee (holding E p x) t)|exact (ForNote (holding E p x) t)|exact (ForAccount (holding E p x) t N1 N2 N3)].
Qed.

(** The balances of a journal made of two are the sums of theirs. *)
Theorem C83_joined : o_show_zero O = true -> sorts E ->
  (r_status (balance_cmd E3 O) = SOk <-> r_status (balance_cmd E1 O) = SOk /\ r_status (balance_cmd E2 O) = SOk) /\
  (r_status (balance_cmd E3 O) = SOk ->
   exists t1 t2 t, balance_tree E1 O t1 /\ balance_tree E2 O t2 /\ balance_tree E3 O t /\
     forall q, exists x y, shows t1 q x /\ shows t2 q y /\ shows t q (plus x y)).
Proof.
  intros Zo So.
  assert (C42 : forall x, CmdSpec.readable (holding E p x) O -> exists sel, picks (holding E p x) O fs (txns 0 (fst (stream (holding E p x) O))) sel).
  { intros x R. destruct (C42_print (holding E p x) O fs Clock Orders So (holding_filters x)) as [K _]. destruct (K R) as (s & _ & P & _). eauto. }
  assert (B : r_status (balance_cmd E3 O) = SOk <-> r_status (balance_cmd E1 O) = SOk /\ r_status (balance_cmd E2 O) = SOk).
  { unfold E1, E2, E3. rewrite !(fun x => proj1 (C61_balance (holding E p x) O fs Clock Orders (holding_filters x))). split.
    - intros [R (s & P & H)]. pose proof (proj1 joined_readable R) as [R1 R2]. destruct (C42 a R1) as (s1 & P1), (C42 b R2) as (s2 & P2).
      apply (priced_join _ _ _ (proj2 (joined_picks fs s1 s2 s (proj1 R) P1 P2 P))) in H as [H1 H2]. eauto 9.
    - intros [[R1 (s1 & P1 & H1)] [R2 (s2 & P2 & H2)]]. pose proof (proj2 joined_readable (conj R1 R2)) as R. destruct (C42 _ R) as (s & P).
      split; [exact R|]. exists s. split; [exact P|]. apply (priced_join _ _ _ (proj2 (joined_picks fs s1 s2 s (proj1 R) P1 P2 P))). auto. }
  split; [exact B|]. intro Ok. pose proof (proj1 B Ok) as [Ok1 Ok2].
  pose proof (proj1 (proj1 (C61_balance E3 O fs Clock Orders (holding_filters _))) Ok) as [[R _] _].
  destruct (balance_shows E1 O fs Clock Orders (holding_filters a) Zo Ok1) as (z1 & t1 & Q1 & T1 & H1).
  destruct (balance_shows E2 O fs Clock Orders (holding_filters b) Zo Ok2) as (z2 & t2 & Q2 & T2 & H2).
  destruct (balance_shows E3 O fs Clock Orders (holding_filters _) Zo Ok) as (z & t & Q & T & H).
  exists t1, t2, t. split; [exact T1|]. split; [exact T2|]. split; [exact T|].
  exact (shows_joined _ _ _ _ _ _ (proj2 (joined_picks fs z1 z2 z R Q1 Q2 Q)) H1 H2 H).
Qed.

(** ** C84: print, accounts and payees of journals put end to end *)
Theorem C84_print : sorts E ->
  (r_status (print_cmd E3 O) = SOk <-> r_status (print_cmd E1 O) = SOk /\ r_status (print_cmd E2 O) = SOk) /\
  (r_status (print_cmd E3 O) = SOk -> Permutation (r_out (print_cmd E3 O)) (r_out (print_cmd E1 O) ++ r_out (print_cmd E2 O))).
Proof.
  intro So.
  destruct (C42_print E1 O fs Clock Orders So (holding_filters a)) as [K1 N1]. destruct (C42_print E2 O fs Clock Orders So (holding_filters b)) as [K2 N2].
  destruct (C42_print E3 O fs Clock Orders So (holding_filters (a ++ LF :: b))) as [K3 N3].
  assert (D : forall x, CmdSpec.readable (holding E p x) O \/ ~ CmdSpec.readable (holding E p x) O).
  { intro x. exact (readable_dec (holding E p x) O fs Clock Orders). }
  assert (I1 : r_status (print_cmd E1 O) = SOk <-> CmdSpec.readable E1 O).
  { split; [intro H; destruct (D a) as [R|R]; [exact R|]; destruct (N1 R); contradiction|]. intro R. destruct (K1 R) as (? & ? & _ & _ & _ & ->). reflexivity. }
  assert (I2 : r_status (print_cmd E2 O) = SOk <-> CmdSpec.readable E2 O).
  { split; [intro H; destruct (D b) as [R|R]; [exact R|]; destruct (N2 R); contradiction|]. intro R. destruct (K2 R) as (? & ? & _ & _ & _ & ->). reflexivity. }
  assert (I3 : r_status (print_cmd E3 O) = SOk <-> CmdSpec.readable E3 O).
  { split; [intro H; destruct (D (a ++ LF :: b)) as [R|R]; [exact R|]; destruct (N3 R); contradiction|]. intro R. destruct (K3 R) as (? & ? & _ & _ & _ & ->). reflexivity. }
  rewrite I1, I2, I3. split; [exact joined_readable|]. intro R. pose proof (proj1 joined_readable R) as [R1 R2].
  destruct (K1 R1) as (s1 & t1 & P1 & M1 & _ & ->). destruct (K2 R2) as (s2 & t2 & P2 & M2 & _ & ->). destruct (K3 R) as (s & t & P & M & _ & ->).
  cbn [r_out]. unfold lines. rewrite <- map_app, <- map_app. do 2 apply Permutation_map. rewrite M, M1, M2.
  now rewrite (proj1 (joined_picks fs s1 s2 s (proj1 R) P1 P2 P)).
Qed.

Theorem C84_listings : Forall (fun x => e_re_ok E (case_text E x) = true) (o_args O) -> forall cmd, cmd = accounts_cmd \/ cmd = payees_cmd ->
  (r_status (cmd E3 O) = SOk <-> r_status (cmd E1 O) = SOk /\ r_status (cmd E2 O) = SOk) /\
  (r_status (cmd E3 O) = SOk -> exists names1 names2 names, r_out (cmd E1 O) = lines names1 /\ r_out (cmd E2 O) = lines names2 /\
     r_out (cmd E3 O) = lines names /\ ascending names /\ forall x, In x names <-> In x names1 \/ In x names2).
Proof.
  intros A cmd Hc.
  assert (D : forall x, CmdSpec.readable (holding E p x) O \/ ~ CmdSpec.readable (holding E p x) O).
  { intro x. exact (readable_dec (holding E p x) O fs Clock Orders). }
  assert (exists S : list transaction -> str -> Prop,
    (forall x y z, S (x ++ y) z <-> S x z \/ S y z) /\ forall x, (CmdSpec.readable (holding E p x) O -> exists sel names, in_range (holding E p x) O (txns 0 (fst (stream (holding E p x) O))) sel /\
       cmd (holding E p x) O = Outcome (lines names) SOk /\ ascending names /\ forall z, In z names <-> S (map u_txn sel) z) /\
    (~ CmdSpec.readable (holding E p x) O -> r_status (cmd (holding E p x) O) <> SOk)) as (S & Sa & K).
  { destruct Hc as [-> | ->].
    - exists (fun ts z => (exists t q, In t ts /\ In q (t_postings t) /\ po_account q = z) /\ (fs = [] \/ exists f, In f fs /\ e_re_match E (f_regex f) z = true)).
      split.
      + intros x y z. split.
        * intros [(t & q & I & J) H]. apply in_app_iff in I as [I|I]; [left|right]; (split; [exists t, q; auto|exact H]).
        * intros [[(t & q & I & J) H]|[(t & q & I & J) H]]; (split; [|exact H]); exists t, q; (split; [apply in_app_iff; auto|exact J]).
      + intro x. destruct (C40_accounts (holding E p x) O fs Clock Orders (holding_filters x)) as [K N]. split; [|exact N]. intro R.
        destruct (K R) as (sel & names & Q1 & Q2 & Q3 & Q4). exists sel, names. split; [exact Q1|]. split; [exact Q2|]. split; [exact Q3|].
        intro z. rewrite Q4. unfold uses. split; intros [(t & q & I & J) H]; (split; [|exact H]).
        * exists (u_txn t), q. split; [now apply in_map|exact J].
        * apply in_map_iff in I as (u & <- & I). eauto.
    - exists (fun ts z => (exists t, In t ts /\ t_payee t = z) /\ (o_args O = [] \/ exists f, In f (o_args O) /\ e_re_match E (case_text E f) z = true)).
      split.
      + intros x y z. split.
        * intros [(t & I & J) H]. apply in_app_iff in I as [I|I]; [left|right]; (split; [exists t; auto|exact H]).
        * intros [[(t & I & J) H]|[(t & I & J) H]]; (split; [|exact H]); exists t; (split; [apply in_app_iff; auto|exact J]).
      + intro x. destruct (C41_payees (holding E p x) O fs Clock Orders (holding_filters x) A) as [K N]. split; [|exact N]. intro R.
        destruct (K R) as (sel & names & Q1 & Q2 & Q3 & Q4). exists sel, names. split; [exact Q1|]. split; [exact Q2|]. split; [exact Q3|].
        intro z. rewrite Q4. unfold pays. split; intros [(t & I & J) H]; (split; [|exact H]).
        * exists (u_txn t). split; [now apply in_map|exact J].
        * apply in_map_iff in I as (u & <- & I). eauto. }
  assert (I : forall x, r_status (cmd (holding E p x) O) = SOk <-> CmdSpec.readable (holding E p x) O).
  { intro x. destruct (K x) as [K1 N]. split.
    - intro H. destruct (D x) as [R|R]; [exact R|]. now apply N in R.
    - intro R. destruct (K1 R) as (? & ? & _ & -> & _). reflexivity. }
  unfold E1, E2, E3. rewrite !I. split; [exact joined_readable|]. intro R. pose proof (proj1 joined_readable R) as [R1 R2].
  destruct (proj1 (K a) R1) as (s1 & n1 & P1 & -> & _ & H1). destruct (proj1 (K b) R2) as (s2 & n2 & P2 & -> & _ & H2).
  destruct (proj1 (K _) R) as (s & n & P & -> & As & H). exists n1, n2, n. cbn [r_out]. do 3 (split; [reflexivity|]). split; [exact As|].
  intro z. rewrite H, H1, H2, (joined_range s1 s2 s (proj1 R) P1 P2 P). apply Sa.
Qed.
End Joined.

Definition opts_zero (b e : str) : opts := Opts (lit "j") b e false [] false false true.
Definition second_text : str := lit "2021-03-05 C" ++ [10] ++ lit "  x:y  $2" ++ [10] ++ lit "  w" ++ [10].
Definition ending : list str := [lit "--------------------" ++ [10]; lit "                0.00" ++ [10]].
(** (The hypotheses on the dates: [C73_example].) *)
Example C83_ranges_example : let E := env1 [(lit "j", text_same)] in let report b e := r_out (balance_cmd E (opts_zero b e)) in
  with_dates (opts_zero [] []) (lit "2021-02") (lit "2022") = opts_zero (lit "2021-02") (lit "2022") /\
  sane_clock E /\ orders E /\ sorts E /\ filters_for E [] [] /\ snd (stream E (opts_zero [] [])) = SOk /\
  report (lit "2021-02") (lit "2021-03-02") = (lit "               $3.50  x" ++ [10] ++ lit "              $-3.50  z" ++ [10]) :: ending /\
  report (lit "2021-03-02") (lit "2022") =
    (lit "               $1.00  x" ++ [10] ++ lit "               $1.00    y" ++ [10] ++ lit "              $-1.00  z" ++ [10]) :: ending /\
  report (lit "2021-02") (lit "2022") =
    (lit "               $4.50  x" ++ [10] ++ lit "               $1.00    y" ++ [10] ++ lit "              $-4.50  z" ++ [10]) :: ending.
Proof.
  cbn zeta. split; [reflexivity|]. split; [apply env1_clock|]. split; [apply env1_orders|]. split; [exact (env0_sorts [])|].
  split; [apply makeFilters_spec; reflexivity|]. split; [vm_compute; reflexivity|]. split; [vm_compute; reflexivity|]. split; vm_compute; reflexivity.
Qed.

Example C83_joined_example : let E := env1 [] in let O := opts_zero [] [] in let at_ x := holding E (lit "j") x in
  journal_path E O = Some (lit "j") /\ line_start text_same /\ steady E /\ sane_clock E /\ orders E /\ sorts E /\ filters_for E (o_args O) [] /\
  balance_cmd (at_ text_same) O =
    Outcome ((lit "               $4.50  x" ++ [10] ++ lit "               $1.00    y" ++ [10] ++ lit "              $-4.50  z" ++ [10]) :: ending) SOk /\
  balance_cmd (at_ second_text) O =
    Outcome ((lit "              $-2.00  w" ++ [10] ++ lit "               $2.00  x" ++ [10] ++ lit "               $2.00    y" ++ [10]) :: ending) SOk /\
  balance_cmd (at_ (text_same ++ LF :: second_text)) O =
    Outcome ((lit "              $-2.00  w" ++ [10] ++ lit "               $6.50  x" ++ [10] ++ lit "               $3.00    y" ++ [10] ++
              lit "              $-4.50  z" ++ [10]) :: ending) SOk.
Proof.
  cbn zeta. split; [reflexivity|]. split; [right; eexists; unfold text_same; rewrite !app_assoc; reflexivity|]. split; [intro n; split; reflexivity|].
  split; [apply env1_clock|]. split; [apply env1_orders|]. split; [exact (env0_sorts [])|].
  split; [apply makeFilters_spec; reflexivity|]. split; [vm_compute; reflexivity|]. split; vm_compute; reflexivity.
Qed.

Example C84_example : let O := opts_zero [] [] in let at_ x := holding (env1 []) (lit "j") x in
  Forall (fun x => e_re_ok (env1 []) (case_text (env1 []) x) = true) (o_args O) /\ print_cmd (at_ second_text) O <> Outcome [] SOk /\
  r_out (print_cmd (at_ (second_text ++ LF :: text_same)) O) = r_out (print_cmd (at_ text_same) O) ++ r_out (print_cmd (at_ second_text) O) /\
  accounts_cmd (at_ (second_text ++ LF :: text_same)) O = Outcome (lines [lit "w"; lit "x"; lit "x:y"; lit "z"]) SOk /\
  accounts_cmd (at_ second_text) O = Outcome (lines [lit "w"; lit "x:y"]) SOk /\
  payees_cmd (at_ (second_text ++ LF :: text_same)) O = Outcome (lines [lit "A"; lit "B"; lit "C"]) SOk.
Proof. cbn zeta. split; [constructor|]. split; [vm_compute; discriminate|]. repeat split; vm_compute; reflexivity. Qed.
