(** * Running commands on what commands print, and with other flags: C70 to C74 *)
From Verif Require Import Base BaseFacts Utf8 Unicode GoTime Strconv Display Journal Lexer Parser ParserFacts
  Account Reporting Cmd Spec TextSpec JournalText TreeSpec TreeFacts ReportSpec CalendarFacts CmdSpec StreamFacts CmdFacts BalanceFacts Sample
  PropsCmd PropsBalance PropsPrint PropsReread.

(** No date flags, no arguments. *)
Definition plain (O : opts) : Prop := o_begin O = [] /\ o_end O = [] /\ o_current O = false /\ o_args O = [].

(** [E'] and [O'] read a journal consisting of [text]. *)
Definition reads (E' : env) (O' : opts) (text : str) : Prop :=
  exists p, journal_path E' O' = Some p /\ e_fs E' p = Some (File text false).

Lemma plain_flags : forall E O n, plain O -> good_flags E O n.
Proof. intros E O n (B & D & _). split; left; assumption. Qed.
Lemma plain_within : forall E O n d, plain O -> 0 <= instant d -> within E O n d.
Proof. intros E O n d (B & D & C & _) H. split; [left; auto|right; left; auto]. Qed.

Lemma picks_selected : forall E O fs us sel sel', picks E O fs us sel -> picks E O fs us sel' -> selected sel = selected sel'.
Proof.
  intros E O fs us sel sel' P P'. pose proof (picks_fun _ _ _ _ _ _ P P') as F. unfold selected.
  assert (X : forall l, map (fun x : used * list posting => u_txn (fst x)) l = map u_txn (map fst l)) by (intro l; now rewrite map_map).
  now rewrite !X, F.
Qed.

(** Everything is picked. *)
Lemma picks_all : forall E O ts p n sel, plain O -> Forall (fun t => 0 <= instant (t_date t)) ts ->
  picks E O [] (txns n (map (fun t => ETxn t p) ts)) sel ->
  selected sel = ts /\ taken sel = flat_map t_postings ts.
Proof.
  intros E O ts p n sel Pl F. revert n sel. induction F as [|t ts H F IH]; intros n sel P; cbn [map txns] in P.
  - inversion P. auto.
  - inversion P as [|? ? ? No P'|? ? ? ps W Hi Pm Wh P']; subst.
    + exfalso. destruct No as [No|No]; [|discriminate]. apply No. now apply plain_within.
    + destruct (IH _ _ P') as [S T]. unfold selected, taken in *. cbn [map fst u_txn flat_map snd]. rewrite S, T.
      rewrite (Wh (or_introl eq_refl)). auto.
Qed.

Lemma delivered_selected : forall E O fs sel t, picks E O fs (txns 0 (fst (stream E O))) sel -> In t (selected sel) ->
  exists fs0 depth0 hint0 f0 path, In (ETxn t path) (fst (trace (e_unicode E) fs0 depth0 hint0 f0)).
Proof.
  intros E O fs sel t P I. apply in_map_iff in I as ([u ps] & <- & I). apply (picks_in _ _ _ _ _ _ _ P) in I as (I & _).
  apply txns_in in I. unfold stream in I. destruct (journal_path E O) as [path|]; [|destruct I]. destruct (e_fs E path) as [f|] eqn:Ef; [|destruct I].
  cbn [fst u_txn] in *. exists (e_fs E), (e_depth E), path, f. eexists. exact I.
Qed.

(** What is read from printed transactions. *)
Lemma printed_stream : forall E O fs sel E' O' ts, picks E O fs (txns 0 (fst (stream E O))) sel -> Permutation ts (selected sel) ->
  Forall reprintable (selected sel) -> e_unicode E' = e_unicode E -> reads E' O' (concat (lines (map transaction_string ts))) ->
  exists p, stream E' O' = (map (fun t => ETxn t p) (map written_out ts), SOk).
Proof.
  intros E O fs sel E' O' ts P Pm R U (p & J & F). exists p. unfold stream. rewrite J, F, U, map_map. apply C43_reads_back_partial.
  - apply Forall_forall. intros t I. eapply delivered_selected; [exact P|]. eapply Permutation_in; eauto.
  - eapply Permutation_Forall; [symmetry; exact Pm|exact R].
Qed.

Lemma reprinted_stream : forall E O fs sel E' O' ts, picks E O fs (txns 0 (fst (stream E O))) sel -> Permutation ts (selected sel) ->
  Forall legible (selected sel) -> e_unicode E' = e_unicode E -> reads E' O' (concat (lines (map transaction_string ts))) ->
  exists p ts', Forall2 reread ts ts' /\ stream E' O' = (map (fun t => ETxn t p) ts', SOk).
Proof.
  intros E O fs sel E' O' ts P Pm R U (p & J & F). exists p. unfold stream. rewrite J, F, U. apply C43_exactly_partial.
  - apply Forall_forall. intros t I. eapply delivered_selected; [exact P|]. eapply Permutation_in; eauto.
  - eapply Permutation_Forall; [symmetry; exact Pm|exact R].
Qed.

Lemma readable_plain : forall E O evs, plain O -> stream E O = (evs, SOk) -> readable E O.
Proof.
  intros E O evs Pl S. unfold readable. rewrite S. split; [reflexivity|]. apply Forall_forall. intros u _. now apply plain_flags.
Qed.

Lemma string_written_out : forall t, transaction_string (written_out t) = transaction_string t.
Proof. intros [d s p ps e h n]. reflexivity. Qed.

(** ** C70: print of what print printed *)

Lemma lines_perm : forall l l', Permutation l l' -> Permutation (lines l) (lines l').
Proof. intros. now apply Permutation_map. Qed.

(** Sorted by dates that are all different: there is only one such order. *)
Lemma one_order : forall l l' : list transaction, Permutation l l' -> NoDup (map (fun t => instant (t_date t)) l) ->
  (forall t, In t l -> real_date (t_date t)) -> date_ordered l -> date_ordered l' -> l = l'.
Proof.
  induction l as [|x l IH]; intros l' P N R S S'.
  - apply Permutation_nil in P. now subst.
  - destruct l' as [|y l']; [symmetry in P; apply Permutation_nil in P; discriminate|].
    inversion S as [|? ? S1 F1]; subst. inversion S' as [|? ? S2 F2]; subst. rewrite Forall_forall in F1, F2.
    assert (Iy : In y (x :: l)) by (eapply Permutation_in; [symmetry; exact P|now left]).
    assert (Ix : In x (y :: l')) by (eapply Permutation_in; [exact P|now left]).
    assert (E : x = y).
    { destruct Iy as [Iy|Iy]; [exact Iy|]. destruct Ix as [Ix|Ix]; [now symmetry|]. exfalso.
      cbn [map] in N. inversion N as [|? ? Nx _]; subst. apply Nx. apply in_map_iff. exists y. split; [|exact Iy].
      assert (Rx : real_date (t_date x)) by (apply R; now left). assert (Ry : real_date (t_date y)) by (apply R; now right).
      pose proof (F1 y Iy) as A. pose proof (F2 x Ix) as B.
      rewrite <- instant_order in A, B by assumption. lia. }
    subst y. f_equal. apply IH; auto.
    + now apply Permutation_cons_inv in P.
    + now inversion N.
    + intros t I. apply R. now right.
Qed.

Lemma print_ok : forall E O fs, sane_clock E -> orders E -> filters_for E (o_args O) fs -> r_status (print_cmd E O) = SOk -> readable E O.
Proof.
  intros E O fs C Or F Q. apply makeFilters_spec in F. pose proof (print_run_spec E O fs C Or) as K.
  unfold print_cmd, with_filters in Q. rewrite F in Q. unfold finish in Q. destruct (print_run E O fs) as [s [| | | |]]; [apply K|discriminate..].
Qed.

(** The same transactions are printed again, in the same text, in order of date; and
    in the same order if no two have the same date (sorting may move those).
    Missing: transactions outside [reprintable] (see C43) and before year 1, which
    the second run drops. *)
Theorem C70_print_again_partial : forall E O fs sel out E' O', sane_clock E -> orders E -> sorts E -> filters_for E (o_args O) fs ->
  picks E O fs (txns 0 (fst (stream E O))) sel -> print_cmd E O = Outcome out SOk ->
  Forall reprintable (selected sel) -> Forall (fun t => 0 <= instant (t_date t)) (selected sel) ->
  sane_clock E' -> orders E' -> sorts E' -> e_unicode E' = e_unicode E -> plain O' -> reads E' O' (concat out) ->
  exists out', print_cmd E' O' = Outcome out' SOk /\ Permutation out' out /\
    (NoDup (map (fun t => instant (t_date t)) (selected sel)) -> out' = out).
Proof.
  intros E O fs sel out E' O' C Or So F P Q R Y C' Or' So' U Pl Rd.
  pose proof (print_ok E O fs C Or F (f_equal r_status Q)) as Re.
  destruct (C42_print E O fs C Or So F) as [K _]. destruct (K Re) as (sel0 & ts & P0 & Pm & S & Q0). clear K.
  rewrite Q in Q0. inversion Q0; subst out. clear Q0. rewrite (picks_selected _ _ _ _ _ _ P0 P) in Pm.
  destruct (printed_stream E O fs sel E' O' ts P Pm R U Rd) as (p & St).
  pose proof (readable_plain _ _ _ Pl St) as Re'.
  assert (F' : filters_for E' (o_args O') []) by (destruct Pl as (_ & _ & _ & ->); split; constructor).
  destruct (C42_print E' O' [] C' Or' So' F') as [K _]. destruct (K Re') as (sel' & ts' & P' & Pm' & S' & Q'). clear K.
  exists (lines (map transaction_string ts')). split; [exact Q'|]. rewrite St in P'. cbn [fst] in P'.
  assert (Y' : Forall (fun t => 0 <= instant (t_date t)) (map written_out ts)).
  { apply Forall_forall. intros t I. apply in_map_iff in I as (t0 & <- & I). rewrite Forall_forall in Y. apply (Y t0). eapply Permutation_in; eauto. }
  destruct (picks_all _ _ _ _ _ _ Pl Y' P') as [X _]. rewrite X in Pm'.
  assert (T : map transaction_string (map written_out ts) = map transaction_string ts) by (rewrite map_map; apply map_ext; apply string_written_out).
  split.
  - apply lines_perm. rewrite <- T. now apply Permutation_map.
  - intro N. rewrite <- T. do 2 f_equal. symmetry. apply one_order; auto.
    + now symmetry.
    + rewrite map_map. cbn [written_out t_date]. eapply Permutation_NoDup; [|exact N]. symmetry. now apply (Permutation_map (fun t => instant (t_date t))).
    + intros t I. apply in_map_iff in I as (t0 & <- & I). eapply (selected_dated E O fs sel t0 P). eapply Permutation_in; eauto.
    + clear - S. unfold date_ordered in *. induction S as [|x l S IH F]; [constructor|]. cbn. constructor; [exact IH|].
      rewrite Forall_forall in *. intros y I. apply in_map_iff in I as (y0 & <- & I). apply (F y0 I).
Qed.

(** Each printing loses another letter of a note on a header without payee. *)
Definition print_text (j : str) : str := concat (r_out (print_cmd (env1 [(lit "j", j)]) (opts0 "j"))).
Theorem C70_print_again_refuted : let j := lit "2021-03-01 ;note" ++ [10] ++ lit "    x    $1" ++ [10] ++ lit "    y    $-1" ++ [10] in
  let rest := [10] ++ lit "    x    $1.00" ++ [10] ++ lit "    y    $-1.00" ++ [10; 10] in
  print_text j = lit "2021-03-01       ; ote" ++ rest /\
  print_text (print_text j) = lit "2021-03-01       ; te" ++ rest /\
  print_text (print_text (print_text j)) = lit "2021-03-01       ; e" ++ rest.
Proof. split; [|split]; vm_compute; reflexivity. Qed.

Definition full_files : list (str * str) := [(lit "j", text_full)].
Definition full_again : list (str * str) := [(lit "j", print_text text_full)].
Lemma plain0 : forall f, plain (opts0 f).
Proof. intro f. repeat split. Qed.
Example C70_example : exists sel, picks (env1 full_files) (opts0 "j") [] (txns 0 (fst (stream (env1 full_files) (opts0 "j")))) sel /\
  length sel = 2%nat /\ Forall reprintable (selected sel) /\ Forall (fun t => 0 <= instant (t_date t)) (selected sel) /\
  NoDup (map (fun t => instant (t_date t)) (selected sel)) /\
  r_status (print_cmd (env1 full_files) (opts0 "j")) = SOk /\
  reads (env1 full_again) (opts0 "j") (concat (r_out (print_cmd (env1 full_files) (opts0 "j")))).
Proof.
  set (us := txns 0 (fst (stream (env1 full_files) (opts0 "j")))). vm_compute in us.
  exists (map (fun u => (u, t_postings (u_txn u))) us). split; [|split; [reflexivity|]].
  - subst us. cbn [map]. repeat (apply PickIt; [apply plain_within; [apply plain0|vm_compute; discriminate]|reflexivity|reflexivity|reflexivity|]). apply PickNone.
  - split; [apply all_reprintable; vm_compute; reflexivity|]. split.
    + subst us. repeat (constructor; [vm_compute; discriminate|]). constructor.
    + split; [|split; [vm_compute; reflexivity|exists (lit "j"); split; vm_compute; reflexivity]].
      vm_compute. repeat constructor; cbn; intuition discriminate.
Qed.

Lemma reread_dated : forall (P : date -> Prop) ts ts', Forall2 reread ts ts' -> Forall (fun t => P (t_date t)) ts -> Forall (fun t => P (t_date t)) ts'.
Proof. intros P ts ts' H. induction H as [|t t' ts ts' [D _ _ _ _ _ _] _ IH]; intro F; inversion_clear F; constructor; [now rewrite D|auto]. Qed.

(** Any transactions with amounts: print of what print printed prints what they read
    back as (C43), in the same order if no two have the same date.  Missing: amounts
    left open or too large, over-long lines, and transactions before year 1. *)
Theorem C70_exactly_partial : forall E O fs sel out E' O', sane_clock E -> orders E -> sorts E -> filters_for E (o_args O) fs ->
  picks E O fs (txns 0 (fst (stream E O))) sel -> print_cmd E O = Outcome out SOk ->
  Forall legible (selected sel) -> Forall (fun t => 0 <= instant (t_date t)) (selected sel) ->
  sane_clock E' -> orders E' -> sorts E' -> e_unicode E' = e_unicode E -> plain O' -> reads E' O' (concat out) ->
  exists ts ts' ts2, Permutation ts (selected sel) /\ out = lines (map transaction_string ts) /\ Forall2 reread ts ts' /\
    print_cmd E' O' = Outcome (lines (map transaction_string ts2)) SOk /\ Permutation ts2 ts' /\
    (NoDup (map (fun t => instant (t_date t)) (selected sel)) -> ts2 = ts').
Proof.
  intros E O fs sel out E' O' C Or So F P Q R Y C' Or' So' U Pl Rd.
  pose proof (print_ok E O fs C Or F (f_equal r_status Q)) as Re.
  destruct (C42_print E O fs C Or So F) as [K _]. destruct (K Re) as (sel0 & ts & P0 & Pm & S & Q0). clear K.
  rewrite Q in Q0. inversion Q0; subst out. clear Q0. rewrite (picks_selected _ _ _ _ _ _ P0 P) in Pm.
  destruct (reprinted_stream E O fs sel E' O' ts P Pm R U Rd) as (p & ts' & Rr & St).
  pose proof (readable_plain _ _ _ Pl St) as Re'.
  assert (F' : filters_for E' (o_args O') []) by (destruct Pl as (_ & _ & _ & ->); split; constructor).
  destruct (C42_print E' O' [] C' Or' So' F') as [K _]. destruct (K Re') as (sel' & ts2 & P' & Pm' & S' & Q'). clear K.
  assert (Y' : Forall (fun t => 0 <= instant (t_date t)) ts').
  { apply (reread_dated (fun d => 0 <= instant d) _ _ Rr). eapply Permutation_Forall; [symmetry; exact Pm|exact Y]. }
  rewrite St in P'. cbn [fst] in P'. destruct (picks_all _ _ _ _ _ _ Pl Y' P') as [X _]. rewrite X in Pm'.
  exists ts, ts', ts2. split; [exact Pm|]. split; [reflexivity|]. split; [exact Rr|]. split; [exact Q'|]. split; [exact Pm'|].
  intro N. symmetry.
  assert (Dt : map t_date ts' = map t_date ts).
  { clear - Rr. induction Rr as [|t t' l l' [D _ _ _ _ _ _] _ IH]; [reflexivity|]. cbn. now rewrite D, IH. }
  apply one_order; auto.
  - now symmetry.
  - rewrite <- (map_map t_date instant), Dt, map_map. eapply Permutation_NoDup; [|exact N]. symmetry. now apply (Permutation_map (fun t => instant (t_date t))).
  - intros t I. apply (in_map t_date) in I. rewrite Dt in I. apply in_map_iff in I as (t0 & <- & I). eapply (selected_dated E O fs sel t0 P). eapply Permutation_in; eauto.
  - clear - S Rr. unfold date_ordered in *. revert S. induction Rr as [|t t' l l' [D _ _ _ _ _ _] G IH]; intro S; [constructor|].
    inversion S as [|? ? S1 F1]; subst. constructor; [now apply IH|]. clear - D F1 G. revert F1.
    induction G as [|u u' l l' [Du _ _ _ _ _ _] _ IH]; intro F1; [constructor|]. inversion_clear F1. constructor; [now rewrite D, Du|auto].
Qed.

(** The printed journal of [text_blank] printed once more. *)
Definition blank_files : list (str * str) := [(lit "j", text_blank)].
Definition blank_again : list (str * str) := [(lit "j", print_text text_blank)].
Example C70_exactly_example : exists sel, picks (env1 blank_files) (opts0 "j") [] (txns 0 (fst (stream (env1 blank_files) (opts0 "j")))) sel /\
  length sel = 2%nat /\ Forall legible (selected sel) /\ Forall (fun t => 0 <= instant (t_date t)) (selected sel) /\
  NoDup (map (fun t => instant (t_date t)) (selected sel)) /\
  reads (env1 blank_again) (opts0 "j") (concat (r_out (print_cmd (env1 blank_files) (opts0 "j")))) /\
  print_text (print_text text_blank) <> print_text text_blank.
Proof.
  set (us := txns 0 (fst (stream (env1 blank_files) (opts0 "j")))). vm_compute in us.
  exists (map (fun u => (u, t_postings (u_txn u))) us). split; [|split; [reflexivity|]].
  - subst us. cbn [map]. repeat (apply PickIt; [apply plain_within; [apply plain0|vm_compute; discriminate]|reflexivity|reflexivity|reflexivity|]). apply PickNone.
  - split; [apply legibleb_ok; vm_compute; reflexivity|]. split.
    + subst us. repeat (constructor; [vm_compute; discriminate|]). constructor.
    + split; [vm_compute; repeat constructor; cbn; intuition discriminate|].
      split; [exists (lit "j"); split; vm_compute; reflexivity|]. vm_compute. discriminate.
Qed.

(** ** C71: balance of what print printed *)

Lemma hits_taken : forall E O fs us sel sel', picks E O fs us sel -> picks E O fs us sel' -> Permutation (taken sel) (taken sel').
Proof.
  intros E O fs us sel sel' H. revert sel'. induction H as [|u us sel No _ IH|u us sel ps W Ht P Wh _ IH]; intros sel' H'.
  - inversion H'. reflexivity.
  - inversion H'; subst; [auto|]. destruct No as [No|No]; [contradiction|congruence].
  - inversion H' as [|? ? ? No H2|? ? ? ps' W' Ht' P' Wh' H2]; subst.
    + destruct No as [No|No]; [contradiction|congruence].
    + unfold taken. cbn. apply Permutation_app; [rewrite P; now symmetry|]. now apply IH.
Qed.

Lemma complaints_none : forall c ps ps0, Forall priced ps0 -> uniform c ps0 -> Forall priced ps -> uniform c ps -> complaints ps0 ps = [].
Proof.
  intros c ps. induction ps as [|p ps IH]; intros ps0 F0 U0 F U; [reflexivity|]. cbn [complaints].
  inversion F as [|? ? Fp F']; subst. inversion U as [|? ? Up U']; subst. rewrite IH; auto.
  - rewrite app_nil_r. assert (L : forall l, (forall q, In q l -> prefix q (components p)) -> flat_map (complaint ps0 p) l = []).
    { induction l as [|q l IHl]; intro H; [reflexivity|]. cbn. rewrite (silent c); auto; [|apply H; now left]. apply IHl. intros. apply H. now right. }
    apply L. intros q I. now apply up_prefix.
  - apply Forall_app. auto.
  - apply Forall_app. split; [exact U0|]. constructor; auto.
Qed.

(** A posting without its comments: all that balances are made of. *)
Definition plainly (p : posting) : posting := Posting [] (po_account p) (po_amount p).
Lemma filter_plainly : forall q ps, filter (below q) (map plainly ps) = map plainly (filter (below q) ps).
Proof. induction ps as [|p ps IH]; [reflexivity|]. cbn [map filter]. rewrite IH. change (below q (plainly p)) with (below q p). now destruct (below q p). Qed.
Lemma total_plainly : forall ps, total (map plainly ps) = total ps.
Proof. induction ps as [|p ps IH]; [reflexivity|]. change (quantity p + total (map plainly ps) = quantity p + total ps). now rewrite IH. Qed.
Lemma first_plainly : forall ps, first_commodity (map plainly ps) = first_commodity ps.
Proof. intro ps. unfold first_commodity, named_commodities. now rewrite map_map. Qed.
Lemma shown_plainly : forall z ps q, shown z (map plainly ps) q <-> shown z ps q.
Proof.
  intros z ps q. unfold shown. assert (X : forall r, total (filter (below r) (map plainly ps)) = total (filter (below r) ps)) by (intro r; now rewrite filter_plainly, total_plainly).
  split; intros [(p & I & K) H]; split.
  - apply in_map_iff in I as (p0 & <- & I). exists p0. auto.
  - destruct H as [H|H]; [auto|right]. intros r N Pr. rewrite <- X. auto.
  - exists (plainly p). split; [now apply in_map|exact K].
  - destruct H as [H|H]; [auto|right]. intros r N Pr. rewrite X. auto.
Qed.
Lemma complaints_plainly : forall ps ps0, complaints (map plainly ps0) (map plainly ps) = complaints ps0 ps.
Proof.
  induction ps as [|p ps IH]; intro ps0; [reflexivity|]. cbn [map complaints]. rewrite <- IH, map_app. f_equal.
  change (components (plainly p)) with (components p). apply flat_map_ext. intro q. unfold complaint.
  change [plainly p] with (map plainly [p]). rewrite <- map_app, filter_plainly, first_plainly. reflexivity.
Qed.
Lemma holds_plainly : forall ps q d, holds ps q d -> holds (map plainly ps) q (AD (a_name d) (a_path d) (a_amount d) (filter (here q) (map plainly ps))).
Proof.
  intros ps q [n p [cm x] po] [Q Cm Po N Pa]. cbn in *. split; cbn; auto.
  - now rewrite filter_plainly, total_plainly.
  - now rewrite filter_plainly, first_plainly.
Qed.
Lemma plainly_holds : forall ps q d, holds (map plainly ps) q d -> holds ps q (AD (a_name d) (a_path d) (a_amount d) (filter (here q) ps)).
Proof.
  intros ps q [n p [cm x] po] [Q Cm Po N Pa]. cbn in *. rewrite filter_plainly, total_plainly in Q. rewrite filter_plainly, first_plainly in Cm. split; cbn; auto.
Qed.
Lemma priced_plainly : forall ps, Forall priced (map plainly ps) <-> Forall priced ps.
Proof. intro ps. rewrite Forall_map. reflexivity. Qed.
Lemma uniform_plainly : forall c ps, uniform c (map plainly ps) <-> uniform c ps.
Proof. intros c ps. unfold uniform. rewrite Forall_map. reflexivity. Qed.

(** Two runs over the same postings in one commodity, in whatever order. *)
Lemma balance_perm : forall c E O fs sel E' O' fs' sel', sane_clock E -> orders E -> filters_for E (o_args O) fs ->
  sane_clock E' -> orders E' -> filters_for E' (o_args O') fs' ->
  readable E O -> picks E O fs (txns 0 (fst (stream E O))) sel -> readable E' O' -> picks E' O' fs' (txns 0 (fst (stream E' O'))) sel' ->
  Forall priced (taken sel) -> uniform c (taken sel) -> Permutation (map plainly (taken sel)) (map plainly (taken sel')) ->
  o_flatten O' = o_flatten O -> o_collapse O' = o_collapse O -> o_show_zero O' = o_show_zero O ->
  balance_cmd E' O' = balance_cmd E O.
Proof.
  intros c E O fs sel E' O' fs' sel' C Or F C' Or' F' Re P Re' P' Pr U Pm Ofl Oc Oz.
  rewrite (balance_cmd_run _ _ _ F), (balance_cmd_run _ _ _ F').
  pose proof (balance_run_spec E O fs C Or) as K. pose proof (balance_run_spec E' O' fs' C' Or') as K'.
  assert (Pr' : Forall priced (taken sel')) by (apply priced_plainly; eapply Permutation_Forall; [exact Pm|]; now apply priced_plainly).
  destruct (balance_run E O fs) as [s r]. destruct (balance_run E' O' fs') as [s' r'].
  destruct r; [|exfalso; apply K; split; [exact Re|]; exists sel; auto..].
  destruct r'; [|exfalso; apply K'; split; [exact Re'|]; exists sel'; auto..].
  destruct K as (_ & sel1 & P1 & F1 & B & Q). destruct K' as (_ & sel1' & P1' & F1' & B' & Q').
  assert (Pm1 : Permutation (map plainly (taken sel1)) (map plainly (taken sel1'))).
  { rewrite (Permutation_map plainly (hits_taken _ _ _ _ _ _ P1 P)), Pm. apply Permutation_map. eapply hits_taken; eauto. }
  assert (U1 : uniform c (taken sel1)) by (eapply uniform_perm; [eapply hits_taken; [exact P|exact P1]|exact U]).
  assert (U1' : uniform c (taken sel1')) by (apply uniform_plainly; eapply uniform_perm; [exact Pm1|]; now apply uniform_plainly).
  unfold finish. rewrite Q, Q', !(complaints_none c) by (auto; constructor). cbn [app].
  assert (Rep : forall a, report O' a = report O a) by (intro a; unfold report; now rewrite Ofl, Oc). rewrite Rep. apply (f_equal (fun l => Outcome l SOk)).
  destruct (prepared E O _ _ Or B) as [D H]. destruct (prepared E' O' _ _ Or' B') as [D' H']. rewrite Oz in H'.
  assert (Data : forall l q, exists d, holds l q d).
  { intros l q. exists (AD (last q (lit "_root_")) (join [58] (visible q))
        (Amount (first_commodity (filter (below q) l)) (wrap64 (total (filter (below q) l)))) (filter (here q) l)). split; reflexivity. }
  assert (Same : forall l l' q d d', Forall priced l -> uniform c l -> Permutation (map plainly l) (map plainly l') -> holds l q d -> holds l' q d' -> stripped d = stripped d').
  { intros l l' q d d' Fl Ul Pl Hd Hd'. apply holds_plainly in Hd, Hd'. apply priced_plainly in Fl. apply uniform_plainly in Ul.
    pose proof (holds_perm c _ _ q _ _ Fl Ul Pl Hd Hd') as X. destruct d as [n p am po], d' as [n' p' am' po']. exact X. }
  apply report_same; auto. intros q x. split.
  - intros (d & N & ->). apply H' in N as [N Hd]. destruct (Data (taken sel1) q) as [d' Hd']. exists d'. split.
    + apply H. split; [|exact Hd']. destruct N as [N|N]; [auto|right]. apply shown_plainly. eapply shown_perm; [symmetry; exact Pm1|]. now apply shown_plainly.
    + eapply Same; [exact F1'|exact U1'|symmetry; exact Pm1|exact Hd|exact Hd'].
  - intros (d & N & ->). apply H in N as [N Hd]. destruct (Data (taken sel1') q) as [d' Hd']. exists d'. split.
    + apply H'. split; [|exact Hd']. destruct N as [N|N]; [auto|right]. apply shown_plainly. eapply shown_perm; [exact Pm1|]. now apply shown_plainly.
    + eapply Same; [exact F1|exact U1|exact Pm1|exact Hd|exact Hd'].
Qed.

Lemma taken_whole : forall E O us sel, picks E O [] us sel -> taken sel = flat_map t_postings (selected sel).
Proof.
  intros E O us sel P. induction P as [|u us sel No _ IH|u us sel ps W Ht P Wh _ IH]; auto.
  unfold taken, selected in *. cbn. now rewrite IH, (Wh (or_introl eq_refl)).
Qed.
Lemma reread_plainly : forall ts ts', Forall2 reread ts ts' -> map plainly (flat_map t_postings ts') = map plainly (flat_map t_postings ts).
Proof.
  intros ts ts' H. induction H as [|t t' ts ts' [_ _ _ _ _ _ R] _ IH]; [reflexivity|]. cbn [flat_map]. rewrite !map_app, IH. f_equal.
  induction R as [|p p' ps ps' (A & B & _) _ IHp]; [reflexivity|]. cbn [map]. rewrite IHp. unfold plainly. now rewrite A, B.
Qed.
Lemma flat_map_perm : forall A B (f : A -> list B) l l', Permutation l l' -> Permutation (flat_map f l) (flat_map f l').
Proof.
  intros A B f l l' P. induction P; cbn; auto.
  - now apply Permutation_app_head.
  - rewrite !app_assoc. apply Permutation_app_tail. apply Permutation_app_comm.
  - etransitivity; eauto.
Qed.

Lemma printed_taken : forall E O sel out E' O', sane_clock E -> orders E -> sorts E -> o_args O = [] ->
  picks E O [] (txns 0 (fst (stream E O))) sel -> print_cmd E O = Outcome out SOk ->
  Forall legible (selected sel) -> Forall (fun t => 0 <= instant (t_date t)) (selected sel) ->
  e_unicode E' = e_unicode E -> plain O' -> reads E' O' (concat out) ->
  readable E O /\ filters_for E (o_args O) [] /\ readable E' O' /\ filters_for E' (o_args O') [] /\ Forall priced (taken sel) /\
  exists sel', picks E' O' [] (txns 0 (fst (stream E' O'))) sel' /\ Permutation (map plainly (taken sel)) (map plainly (taken sel')).
Proof.
  intros E O sel out E' O' C Or So A P Q R Y U Pl Rd.
  assert (F : filters_for E (o_args O) []) by (rewrite A; split; constructor).
  pose proof (print_ok E O [] C Or F (f_equal r_status Q)) as Re.
  destruct (C42_print E O [] C Or So F) as [K _]. destruct (K Re) as (sel0 & ts & P0 & Pm & S & Q0). clear K.
  rewrite Q in Q0. inversion Q0; subst out. clear Q0. rewrite (picks_selected _ _ _ _ _ _ P0 P) in Pm.
  destruct (reprinted_stream E O [] sel E' O' ts P Pm R U Rd) as (p & ts2 & Rr & St).
  pose proof (readable_plain _ _ _ Pl St) as Re'.
  assert (F' : filters_for E' (o_args O') []) by (destruct Pl as (_ & _ & _ & ->); split; constructor).
  assert (Y' : Forall (fun t => 0 <= instant (t_date t)) ts2).
  { apply (reread_dated (fun d => 0 <= instant d) _ _ Rr). eapply Permutation_Forall; [symmetry; exact Pm|exact Y]. }
  assert (Ex : exists sel', picks E' O' [] (txns 0 (fst (stream E' O'))) sel').
  { rewrite St. cbn [fst]. clear - Pl Y'. revert Y'. generalize 0%nat. generalize ts2 as l. induction l as [|t l IH]; intros n Y; [exists []; constructor|].
    inversion_clear Y as [|? ? Yt Y1]. destruct (IH (Datatypes.S n) Y1) as [sel' P]. eexists (_ :: sel'). cbn [map txns].
    apply PickIt; [now apply plain_within|reflexivity|reflexivity|reflexivity|exact P]. }
  destruct Ex as [sel' P'].
  assert (T : map plainly (taken sel') = map plainly (flat_map t_postings ts)).
  { rewrite St in P'. cbn [fst] in P'. destruct (picks_all _ _ _ _ _ _ Pl Y' P') as [_ X]. rewrite X. now apply reread_plainly. }
  pose proof (taken_whole _ _ _ _ P) as T0.
  split; [exact Re|]. split; [exact F|]. split; [exact Re'|]. split; [exact F'|]. split.
  - rewrite T0. apply Forall_forall. intros q I. apply in_flat_map in I as (t & I & J). rewrite Forall_forall in R.
    destruct (R t I) as [Am _]. unfold amounts_fit in Am. rewrite Forall_forall in Am. destruct (Am q J) as (cc & x & E1 & _). unfold priced. congruence.
  - exists sel'. split; [exact P'|]. rewrite T0, T. apply Permutation_map, flat_map_perm. now symmetry.
Qed.
(** The balance of a range of dates is the balance of the journal printed for these
    dates.  Missing: transactions outside [legible] and before year 1, and journals
    with several commodities, where the order of the postings matters. *)
Theorem C71_balance_of_print_partial : forall c E O sel out E' O', sane_clock E -> orders E -> sorts E -> o_args O = [] ->
  picks E O [] (txns 0 (fst (stream E O))) sel -> print_cmd E O = Outcome out SOk ->
  Forall legible (selected sel) -> Forall (fun t => 0 <= instant (t_date t)) (selected sel) ->
  Forall (fun t => uniform c (t_postings t)) (selected sel) ->
  sane_clock E' -> orders E' -> e_unicode E' = e_unicode E -> plain O' -> reads E' O' (concat out) ->
  o_flatten O' = o_flatten O -> o_collapse O' = o_collapse O -> o_show_zero O' = o_show_zero O ->
  balance_cmd E' O' = balance_cmd E O.
Proof.
  intros c E O sel out E' O' C Or So A P Q R Y Un C' Or' U Pl Rd Ofl Oc Oz.
  destruct (printed_taken E O sel out E' O' C Or So A P Q R Y U Pl Rd) as (Re & F & Re' & F' & Pr & sel' & P' & T).
  apply (balance_perm c E O [] sel E' O' [] sel'); auto.
  rewrite (taken_whole _ _ _ _ P). apply Forall_forall. intros q I. apply in_flat_map in I as (t & I & J). rewrite Forall_forall in Un. specialize (Un t I).
  unfold uniform in Un. rewrite Forall_forall in Un. now apply Un.
Qed.

(** Two runs over the same postings in the same order, in whatever commodities. *)
Lemma balance_equal : forall E O sel E' O' sel', sane_clock E -> orders E -> filters_for E (o_args O) [] ->
  sane_clock E' -> orders E' -> filters_for E' (o_args O') [] ->
  readable E O -> picks E O [] (txns 0 (fst (stream E O))) sel -> readable E' O' -> picks E' O' [] (txns 0 (fst (stream E' O'))) sel' ->
  Forall priced (taken sel) -> map plainly (taken sel') = map plainly (taken sel) ->
  o_flatten O' = o_flatten O -> o_collapse O' = o_collapse O -> o_show_zero O' = o_show_zero O ->
  balance_cmd E' O' = balance_cmd E O.
Proof.
  intros E O sel E' O' sel' C Or F C' Or' F' Re P Re' P' Pr T Ofl Oc Oz.
  rewrite (balance_cmd_run _ _ _ F), (balance_cmd_run _ _ _ F').
  pose proof (balance_run_spec E O [] C Or) as K. pose proof (balance_run_spec E' O' [] C' Or') as K'.
  assert (Pr' : Forall priced (taken sel')) by (apply priced_plainly; rewrite T; now apply priced_plainly).
  destruct (balance_run E O []) as [s r]. destruct (balance_run E' O' []) as [s' r'].
  destruct r; [|exfalso; apply K; split; [exact Re|]; exists sel; auto..].
  destruct r'; [|exfalso; apply K'; split; [exact Re'|]; exists sel'; auto..].
  destruct K as (_ & sel1 & P1 & F1 & B & Q). destruct K' as (_ & sel1' & P1' & F1' & B' & Q').
  assert (T1 : map plainly (taken sel1') = map plainly (taken sel1)).
  { rewrite (taken_whole _ _ _ _ P1), (taken_whole _ _ _ _ P1'), (picks_selected _ _ _ _ _ _ P1 P), (picks_selected _ _ _ _ _ _ P1' P').
    now rewrite <- (taken_whole _ _ _ _ P), <- (taken_whole _ _ _ _ P'). }
  unfold finish. rewrite Q, Q', <- (complaints_plainly (taken sel1') []), T1, complaints_plainly.
  assert (Rep : forall a, report O' a = report O a) by (intro a; unfold report; now rewrite Ofl, Oc). rewrite Rep.
  destruct (prepared E O _ _ Or B) as [D H]. destruct (prepared E' O' _ _ Or' B') as [D' H']. rewrite Oz in H'.
  apply (f_equal (fun l => Outcome (complaints [] (taken sel1) ++ l) SOk)).
  assert (Sh : forall q, shown (o_show_zero O) (taken sel1') q <-> shown (o_show_zero O) (taken sel1) q).
  { intro q. rewrite <- (shown_plainly _ (taken sel1')), T1. apply shown_plainly. }
  apply report_same; auto. intros q x. split; intros (d & N & E1).
  - apply H' in N as [N Hd]. exists (AD (a_name d) (a_path d) (a_amount d) (filter (here q) (taken sel1))). split; [|subst x; now destruct d].
    apply H. split; [rewrite <- Sh; exact N|]. apply holds_plainly in Hd. rewrite T1 in Hd. exact (plainly_holds _ _ _ Hd).
  - apply H in N as [N Hd]. exists (AD (a_name d) (a_path d) (a_amount d) (filter (here q) (taken sel1'))). split; [|subst x; now destruct d].
    apply H'. split; [rewrite Sh; exact N|]. apply holds_plainly in Hd. rewrite <- T1 in Hd. exact (plainly_holds _ _ _ Hd).
Qed.

(** In whatever commodities, when the transactions stand in order of date already.
    Missing: transactions outside [legible] and before year 1. *)
Theorem C71_in_order_partial : forall E O sel out E' O', sane_clock E -> orders E -> sorts E -> o_args O = [] ->
  picks E O [] (txns 0 (fst (stream E O))) sel -> print_cmd E O = Outcome out SOk ->
  Forall legible (selected sel) -> Forall (fun t => 0 <= instant (t_date t)) (selected sel) ->
  StronglySorted (fun a b => earlier (t_date a) (t_date b)) (selected sel) ->
  sane_clock E' -> orders E' -> e_unicode E' = e_unicode E -> plain O' -> reads E' O' (concat out) ->
  o_flatten O' = o_flatten O -> o_collapse O' = o_collapse O -> o_show_zero O' = o_show_zero O ->
  balance_cmd E' O' = balance_cmd E O.
Proof.
  intros E O sel out E' O' C Or So A P Q R Y In C' Or' U Pl Rd Ofl Oc Oz.
  assert (F : filters_for E (o_args O) []) by (rewrite A; split; constructor).
  pose proof (print_ok E O [] C Or F (f_equal r_status Q)) as Re.
  destruct (C42_print E O [] C Or So F) as [K _]. destruct (K Re) as (sel0 & ts & P0 & Pm & S & Q0). clear K.
  rewrite Q in Q0. inversion Q0; subst out. clear Q0. rewrite (picks_selected _ _ _ _ _ _ P0 P) in Pm.
  destruct (reprinted_stream E O [] sel E' O' ts P Pm R U Rd) as (p & ts2 & Rr & St).
  pose proof (readable_plain _ _ _ Pl St) as Re'.
  assert (F' : filters_for E' (o_args O') []) by (destruct Pl as (_ & _ & _ & ->); split; constructor).
  assert (Y' : Forall (fun t => 0 <= instant (t_date t)) ts2).
  { apply (reread_dated (fun d => 0 <= instant d) _ _ Rr). eapply Permutation_Forall; [symmetry; exact Pm|exact Y]. }
  assert (Ex : exists sel', picks E' O' [] (txns 0 (fst (stream E' O'))) sel').
  { rewrite St. cbn [fst]. clear - Pl Y'. revert Y'. generalize 0%nat. generalize ts2 as l. induction l as [|t l IH]; intros n Y; [exists []; constructor|].
    inversion_clear Y as [|? ? Yt Y1]. destruct (IH (Datatypes.S n) Y1) as [sel' P]. eexists (_ :: sel'). cbn [map txns].
    apply PickIt; [now apply plain_within|reflexivity|reflexivity|reflexivity|exact P]. }
  destruct Ex as [sel' P'].
  assert (T : map plainly (taken sel') = map plainly (flat_map t_postings ts)).
  { rewrite St in P'. cbn [fst] in P'. destruct (picks_all _ _ _ _ _ _ Pl Y' P') as [_ X]. rewrite X. now apply reread_plainly. }
  pose proof (taken_whole _ _ _ _ P) as T0.
  assert (Rl : forall t, List.In t (selected sel) -> real_date (t_date t)) by (intros t; apply (selected_dated E O [] sel t P)).
  assert (Eq : selected sel = ts).
  { assert (L : StronglySorted (fun a b => instant (t_date a) < instant (t_date b)) (selected sel)).
    { revert In Rl. generalize (selected sel). clear. induction l as [|x l IH]; intros In R; constructor; inversion In as [|? ? S' F]; subst.
      - apply IH; [assumption|]. intros; apply R; now right.
      - rewrite Forall_forall in *. intros y I. apply instant_order; [apply R; now left|apply R; now right|]. now apply F. }
    apply one_order; [now symmetry| |exact Rl| |exact S].
    - clear - L. induction L as [|x l L IH F]; cbn; constructor; [|exact IH]. rewrite in_map_iff. intros (y & E1 & I). rewrite Forall_forall in F. specialize (F y I). lia.
    - revert L Rl. generalize (selected sel). clear. unfold date_ordered. induction l as [|x l IH]; intros L R; constructor; inversion L as [|? ? S' F]; subst.
      + apply IH; [assumption|]. intros; apply R; now right.
      + rewrite Forall_forall in *. intros y I X. apply instant_order in X; [|apply R; now right|apply R; now left]. specialize (F y I). lia. }
  apply (balance_equal E O sel E' O' sel'); auto.
  - rewrite T0. apply Forall_forall. intros q I. apply in_flat_map in I as (t & I & J). rewrite Forall_forall in R.
    destruct (R t I) as [Am _]. unfold amounts_fit in Am. rewrite Forall_forall in Am. destruct (Am q J) as (cc & x & E1 & _). unfold priced. congruence.
  - rewrite T, T0. now rewrite Eq.
Qed.

Definition text_same : str :=
  lit "2021-03-02 A" ++ [10] ++ lit "    x:y    $1" ++ [10] ++ lit "    z" ++ [10; 10] ++
  lit "2021-03-01 B" ++ [10] ++ lit "    x    $3.50" ++ [10] ++ lit "    z    $-3.50" ++ [10].
Example C71_example : length (txns_of text_same) = 2%nat /\ Forall (fun t => uniform (lit "$") (t_postings t)) (txns_of text_same) /\
  Forall legible (txns_of text_same) /\
  reads (env1 [(lit "j", print_text text_same)]) (opts0 "j") (concat (r_out (print_cmd (env1 [(lit "j", text_same)]) (opts0 "j")))) /\
  r_status (balance_cmd (env1 [(lit "j", text_same)]) (opts0 "j")) = SOk.
Proof.
  split; [vm_compute; reflexivity|]. split; [|split; [|split; [exists (lit "j"); split; vm_compute; reflexivity|vm_compute; reflexivity]]].
  - apply Forall_forall. intros t I. apply goodb_iff.
    assert (X : forallb (goodb (lit "$")) (txns_of text_same) = true) by (vm_compute; reflexivity). rewrite forallb_forall in X. exact (X t I).
  - apply legibleb_ok. vm_compute. reflexivity.
Qed.

(** With two commodities the balance shows the one used first in the file, and
    sorting by date changes which that is. *)
Definition text_mixed : str :=
  lit "2021-03-02 A" ++ [10] ++ lit "    x    $1" ++ [10] ++ lit "    y    $-1" ++ [10; 10] ++
  lit "2021-03-01 B" ++ [10] ++ lit "    x    €1" ++ [10] ++ lit "    y    €-1" ++ [10].
Theorem C71_mixed_refuted : r_status (balance_cmd (env1 [(lit "j", text_mixed)]) (opts0 "j")) = SOk /\
  balance_cmd (env1 [(lit "j", print_text text_mixed)]) (opts0 "j") <> balance_cmd (env1 [(lit "j", text_mixed)]) (opts0 "j").
Proof. split; [vm_compute; reflexivity|]. vm_compute. discriminate. Qed.

Definition text_two : str :=
  lit "2021-03-01 B" ++ [10] ++ lit "    x    €1" ++ [10] ++ lit "    y    €-1" ++ [10; 10] ++
  lit "2021-03-02 A" ++ [10] ++ lit "    x    $1" ++ [10] ++ lit "    y    $-1" ++ [10].
Example C71_in_order_example : let E := env1 [(lit "j", text_two)] in let O := opts0 "j" in
  (exists sel, picks E O [] (txns 0 (fst (stream E O))) sel /\ length sel = 2%nat /\ Forall legible (selected sel) /\
     Forall (fun t => 0 <= instant (t_date t)) (selected sel) /\ StronglySorted (fun a b => earlier (t_date a) (t_date b)) (selected sel)) /\
  plain O /\ reads (env1 [(lit "j", print_text text_two)]) O (concat (r_out (print_cmd E O))) /\ r_status (print_cmd E O) = SOk.
Proof.
  cbn zeta. split; [|split; [apply plain0|split; [exists (lit "j"); split; vm_compute; reflexivity|vm_compute; reflexivity]]].
  set (us := txns 0 (fst (stream (env1 [(lit "j", text_two)]) (opts0 "j")))). vm_compute in us.
  exists (map (fun u => (u, t_postings (u_txn u))) us). split; [|split; [reflexivity|split; [apply legibleb_ok; vm_compute; reflexivity|split]]].
  - subst us. cbn [map]. repeat (apply PickIt; [apply plain_within; [apply plain0|vm_compute; discriminate]|reflexivity|reflexivity|reflexivity|]). apply PickNone.
  - subst us. repeat (constructor; [vm_compute; discriminate|]). constructor.
  - subst us. cbn. constructor; [constructor; [constructor|constructor]|]. constructor; [|constructor]. unfold earlier. cbn. lia.
Qed.

(** ** C72: more arguments, more transactions *)

Definition with_args (O : opts) (args : list str) : opts :=
  Opts (o_file O) (o_begin O) (o_end O) (o_current O) args (o_flatten O) (o_collapse O) (o_show_zero O).

Lemma hit_app : forall E fs gs t, fs <> [] -> gs <> [] -> hit E (fs ++ gs) t = hit E fs t || hit E gs t.
Proof.
  intros E fs gs t N N'. destruct fs as [|f fs]; [contradiction|]. destruct gs as [|g gs]; [contradiction|]. unfold hit.
  cbn [app]. change (f :: fs ++ g :: gs) with ((f :: fs) ++ g :: gs). unfold whole_hit. rewrite existsb_app.
  assert (X : existsb (posting_hit E ((f :: fs) ++ g :: gs)) (t_postings t) =
    existsb (posting_hit E (f :: fs)) (t_postings t) || existsb (posting_hit E (g :: gs)) (t_postings t)).
  { clear. induction (t_postings t) as [|p ps IH]; [reflexivity|].
    cbn [existsb]. rewrite IH. unfold posting_hit at 1. rewrite existsb_app. fold (posting_hit E (f :: fs) p). fold (posting_hit E (g :: gs) p).
    destruct (posting_hit E (f :: fs) p), (posting_hit E (g :: gs) p), (existsb (posting_hit E (f :: fs)) ps); reflexivity. }
  rewrite X. set (a := existsb _ (f :: fs)). set (b := existsb _ (g :: gs)). set (c := existsb _ _). set (d := existsb _ _).
  clearbody a b c d. destruct a, b, c, d; reflexivity.
Qed.

Lemma picks_sub : forall E O O' fs fs', (forall n d, within E O n d <-> within E O' n d) -> (forall t, hit E fs t = true -> hit E fs' t = true) ->
  forall us sel sel', picks E O fs us sel -> picks E O' fs' us sel' -> exists rest, Permutation (selected sel') (selected sel ++ rest).
Proof.
  intros E O O' fs fs' W S us sel sel' P. revert sel'. induction P as [|u us sel No _ IH|u us sel ps Wi Ht Pm Wh _ IH]; intros sel' P'.
  - inversion P'. exists []. constructor.
  - inversion P' as [|? ? ? No' P2|? ? ? ps' W' H' Pm' Wh' P2]; subst; destruct (IH _ P2) as [rest R]; [eauto|].
    exists (u_txn u :: rest). cbn. now apply Permutation_cons_app.
  - inversion P' as [|? ? ? No' P2|? ? ? ps' W' H' Pm' Wh' P2]; subst.
    + destruct No' as [No'|No']; [now apply W in Wi|]. now rewrite (S _ Ht) in No'.
    + destruct (IH _ P2) as [rest R]. exists rest. cbn. now constructor.
Qed.

Lemma picks_either : forall E O fs gs hs, (forall t, hit E hs t = hit E fs t || hit E gs t) ->
  forall us sf sg sh, picks E O fs us sf -> picks E O gs us sg -> picks E O hs us sh -> forall t, In t (selected sh) -> In t (selected sf) \/ In t (selected sg).
Proof.
  intros E O fs gs hs H us sf sg sh Pf Pg Ph t I. revert sf sg Pf Pg. induction Ph as [|u us sh No _ IH|u us sh ps W Ht Pm Wh _ IH]; intros sf sg Pf Pg.
  - destruct I.
  - inversion Pf; inversion Pg; subst; destruct (IH I _ _ ltac:(eassumption) ltac:(eassumption)); cbn; auto.
  - rewrite H in Ht. apply orb_true_iff in Ht.
    assert (X : (hit E fs (u_txn u) = true -> In (u_txn u) (selected sf)) /\ (hit E gs (u_txn u) = true -> In (u_txn u) (selected sg))).
    { split; intro K; [inversion Pf as [|? ? ? No P2|]|inversion Pg as [|? ? ? No P2|]]; subst; try (now left); destruct No as [No|No]; [contradiction|congruence|contradiction|congruence]. }
    destruct I as [I|I]; [cbn in I; subst t; destruct X; tauto|].
    inversion Pf; inversion Pg; subst; destruct (IH I _ _ ltac:(eassumption) ltac:(eassumption)); cbn; auto.
Qed.

Lemma picks_opts : forall E O O' fs us sel, (forall n d, within E O n d <-> within E O' n d) -> picks E O fs us sel -> picks E O' fs us sel.
Proof.
  intros E O O' fs us sel W P. induction P as [|u us sel No _ IH|u us sel ps Wi Ht Pm Wh _ IH].
  - apply PickNone.
  - apply PickNot; [|exact IH]. destruct No as [No|No]; [left|now right]. intro K. apply No. now apply W.
  - apply PickIt; auto. now apply W.
Qed.

Lemma print_text_in : forall ts sel s, Permutation ts (selected sel) ->
  (In s (lines (map transaction_string ts)) <-> exists t, In t (selected sel) /\ s = transaction_string t ++ [10]).
Proof.
  intros ts sel s P. unfold lines. rewrite map_map, in_map_iff. split; intros (t & A & B).
  - exists t. split; [eapply Permutation_in; eauto|auto].
  - exists t. split; [auto|]. eapply Permutation_in; [symmetry|]; eauto.
Qed.

Theorem C72_arguments : forall E O A B fs gs, sane_clock E -> orders E -> sorts E -> A <> [] -> B <> [] ->
  filters_for E A fs -> filters_for E B gs -> readable E O ->
  exists outA outB out, print_cmd E (with_args O A) = Outcome outA SOk /\ print_cmd E (with_args O B) = Outcome outB SOk /\
    print_cmd E (with_args O (A ++ B)) = Outcome out SOk /\
    (exists rest, Permutation out (outA ++ rest)) /\ (exists rest, Permutation out (outB ++ rest)) /\
    (forall s, In s out <-> In s outA \/ In s outB).
Proof.
  intros E O A B fs gs C Or So NA NB FA FB R.
  assert (Nf : fs <> []) by (intros ->; destruct FA as [FA _]; inversion FA; subst; contradiction).
  assert (Ng : gs <> []) by (intros ->; destruct FB as [FB _]; inversion FB; subst; contradiction).
  assert (F : filters_for E (A ++ B) (fs ++ gs)).
  { destruct FA, FB. split; [now apply Forall2_app|now apply Forall_app]. }
  destruct (C42_print E (with_args O A) fs C Or So FA) as [KA _]. destruct (KA R) as (sa & ta & Pa & Pma & _ & Qa).
  destruct (C42_print E (with_args O B) gs C Or So FB) as [KB _]. destruct (KB R) as (sb & tb & Pb & Pmb & _ & Qb).
  destruct (C42_print E (with_args O (A ++ B)) (fs ++ gs) C Or So F) as [K _]. destruct (K R) as (s & t & P & Pm & _ & Q).
  exists (lines (map transaction_string ta)), (lines (map transaction_string tb)), (lines (map transaction_string t)).
  split; [exact Qa|]. split; [exact Qb|]. split; [exact Q|].
  assert (W : forall a b n d, within E (with_args O a) n d <-> within E (with_args O b) n d) by (intros; reflexivity).
  assert (Sub : forall a hs tx sx, (forall t, hit E hs t = true -> hit E (fs ++ gs) t = true) ->
    picks E (with_args O a) hs (txns 0 (fst (stream E O))) sx -> Permutation tx (selected sx) ->
    exists rest, Permutation (lines (map transaction_string t)) (lines (map transaction_string tx) ++ rest)).
  { intros a hs tx sx Hs Px Pmx. destruct (picks_sub E _ _ hs (fs ++ gs) (W a (A ++ B)) Hs _ _ _ Px P) as [rest X].
    exists (lines (map transaction_string rest)). unfold lines. rewrite !map_map, <- map_app. apply Permutation_map. rewrite Pm, X. apply Permutation_app_tail. now symmetry. }
  split; [apply (Sub A fs ta sa); auto; intros x Hx; rewrite hit_app, Hx by assumption; reflexivity|].
  split; [apply (Sub B gs tb sb); auto; intros x Hx; rewrite hit_app, Hx by assumption; apply orb_true_r|].
  intro x. split.
  - intro I. apply (print_text_in _ _ _ Pm) in I as (u & I & ->).
    destruct (picks_either E (with_args O (A ++ B)) fs gs (fs ++ gs) (fun t => hit_app E fs gs t Nf Ng) _ _ _ _
      (picks_opts _ _ _ _ _ _ (W A (A ++ B)) Pa) (picks_opts _ _ _ _ _ _ (W B (A ++ B)) Pb) P _ I) as [J|J]; [left|right].
    + apply (print_text_in _ _ _ Pma). eauto.
    + apply (print_text_in _ _ _ Pmb). eauto.
  - destruct (Sub A fs ta sa) as [ra Xa]; auto; [intros y Hy; rewrite hit_app, Hy by assumption; reflexivity|].
    destruct (Sub B gs tb sb) as [rb Xb]; auto; [intros y Hy; rewrite hit_app, Hy by assumption; apply orb_true_r|].
    intros [I|I]; [eapply Permutation_in; [symmetry; exact Xa|]|eapply Permutation_in; [symmetry; exact Xb|]]; apply in_or_app; now left.
Qed.

Example C72_example : exists fs gs, filters_for (env1 []) [lit "x"] fs /\ filters_for (env1 []) [lit "@Shop"; lit "=n"] gs /\
  readable (env1 [(lit "j", text_same)]) (opts0 "j").
Proof.
  eexists [_], [_; _]. split; [split; repeat constructor; discriminate|]. split; [split; repeat constructor|].
  apply readable_noflags. vm_compute. reflexivity.
Qed.

(** ** C73: adjacent date ranges *)

Definition with_dates (O : opts) (b e : str) : opts :=
  Opts (o_file O) b e (o_current O) (o_args O) (o_flatten O) (o_collapse O) (o_show_zero O).

Lemma picks_split : forall E O1 O2 O fs us, Forall (fun u => (within E O (u_n u) (t_date (u_txn u)) <->
    within E O1 (u_n u) (t_date (u_txn u)) \/ within E O2 (u_n u) (t_date (u_txn u))) /\
    ~ (within E O1 (u_n u) (t_date (u_txn u)) /\ within E O2 (u_n u) (t_date (u_txn u)))) us ->
  forall s1 s2 s, picks E O1 fs us s1 -> picks E O2 fs us s2 -> picks E O fs us s -> Permutation (selected s) (selected s1 ++ selected s2).
Proof.
  intros E O1 O2 O fs us F. induction F as [|u us [W N] F IH]; intros s1 s2 s P1 P2 P.
  - inversion P1; inversion P2; inversion P. constructor.
  - inversion P1 as [|? ? ? No1 Q1|? ? ? ps1 W1 Hh1 Pm1 Wh1 Q1]; subst; inversion P2 as [|? ? ? No2 Q2|? ? ? ps2 W2 Hh2 Pm2 Wh2 Q2]; subst;
      inversion P as [|? ? ? No Q|? ? ? ps W0 Hh0 Pm0 Wh0 Q]; subst; specialize (IH _ _ _ Q1 Q2 Q).
    + exact IH.
    + exfalso. destruct No1 as [No1|No1]; [|congruence]. destruct No2 as [No2|No2]; [|congruence]. tauto.
    + exfalso. destruct No as [No|No]; [tauto|congruence].
    + cbn. now apply Permutation_cons_app.
    + exfalso. destruct No as [No|No]; [tauto|congruence].
    + cbn. now constructor.
    + exfalso. tauto.
    + exfalso. tauto.
Qed.

Lemma ranges_meet : forall E O a b c da db dc n d, sane_clock E -> o_current O = false ->
  (forall n, flag_means (e_year E n) a da) -> (forall n, flag_means (e_year E n) b db) -> (forall n, flag_means (e_year E n) c dc) ->
  e_local E da <= e_local E db <= e_local E dc -> 0 < e_local E db ->
  (within E (with_dates O a c) n d <-> within E (with_dates O a b) n d \/ within E (with_dates O b c) n d) /\
  ~ (within E (with_dates O a b) n d /\ within E (with_dates O b c) n d).
Proof.
  intros E O a b c da db dc n d C Cu Fa Fb Fc L Lb.
  assert (NE : forall n x d, flag_means (e_year E n) x d -> x <> []).
  { clear. intros n x d X ->. destruct X as [X|X]; inversion X; subst.
    - match goal with H : numeral 4 [] _ |- _ => destruct H as [K _]; discriminate K end.
    - match goal with H : ?l ++ _ = [] |- _ => destruct l; discriminate H end.
    - match goal with H : ?l ++ _ = [] |- _ => destruct l; discriminate H end.
    - match goal with H : ymd_text _ _ [] |- _ => inversion H as [y0 ? ? ? ? ? K]; destruct y0; discriminate K end. }
  assert (Wi : forall x y dx dy n d, (forall n, flag_means (e_year E n) x dx) -> (forall n, flag_means (e_year E n) y dy) ->
    (within E (with_dates O x y) n d <-> e_local E dx <= instant d /\ (e_local E dy = 0 \/ instant d < e_local E dy))).
  { clear - C Cu NE. intros x y dx dy n d Hx Hy. unfold within, starts_before, ends_after. cbn [with_dates o_begin o_end o_current]. rewrite Cu.
    pose proof (NE n _ _ (Hx n)) as Nx. pose proof (NE n _ _ (Hy n)) as Ny. split.
    - intros [[[[?|?] _]|(_ & _ & dx' & X & I1)] [(? & _)|[(_ & ?)|(_ & _ & dy' & Y & I2)]]]; try discriminate; try contradiction.
      rewrite (flag_unique E (2 * n) x dx dx' C (Hx _) X), (flag_unique E (2 * n + 1) y dy dy' C (Hy _) Y). auto.
    - intros [I1 I2]. split.
      + right. split; [exact Nx|]. split; [reflexivity|]. exists dx. auto.
      + right. right. split; [reflexivity|]. split; [exact Ny|]. exists dy. auto. }
  rewrite (Wi a c da dc), (Wi a b da db), (Wi b c db dc) by assumption. lia.
Qed.

(** Printing from [a] up to [b] and from [b] up to [c] prints what printing from [a]
    up to [c] does. *)
Theorem C73_ranges : forall E O a b c da db dc fs, sane_clock E -> orders E -> sorts E -> filters_for E (o_args O) fs ->
  o_current O = false -> snd (stream E O) = SOk ->
  (forall n, flag_means (e_year E n) a da /\ flag_means (e_year E n) b db /\ flag_means (e_year E n) c dc) ->
  e_local E da <= e_local E db <= e_local E dc -> 0 < e_local E db ->
  exists out1 out2 out, print_cmd E (with_dates O a b) = Outcome out1 SOk /\ print_cmd E (with_dates O b c) = Outcome out2 SOk /\
    print_cmd E (with_dates O a c) = Outcome out SOk /\ Permutation out (out1 ++ out2).
Proof.
  intros E O a b c da db dc fs C Or So F Cu St Fl L Lb.
  assert (R : forall x y dx dy, (forall n, flag_means (e_year E n) x dx) -> (forall n, flag_means (e_year E n) y dy) -> readable E (with_dates O x y)).
  { intros x y dx dy Hx Hy. split; [exact St|]. apply Forall_forall. intros u _. split; right; right; [exists dx; apply Hx|exists dy; apply Hy]. }
  assert (Fa : forall n, flag_means (e_year E n) a da) by apply Fl.
  assert (Fb : forall n, flag_means (e_year E n) b db) by apply Fl.
  assert (Fc : forall n, flag_means (e_year E n) c dc) by apply Fl.
  destruct (C42_print E (with_dates O a b) fs C Or So F) as [K1 _]. destruct (K1 (R _ _ _ _ Fa Fb)) as (s1 & t1 & P1 & Pm1 & _ & Q1).
  destruct (C42_print E (with_dates O b c) fs C Or So F) as [K2 _]. destruct (K2 (R _ _ _ _ Fb Fc)) as (s2 & t2 & P2 & Pm2 & _ & Q2).
  destruct (C42_print E (with_dates O a c) fs C Or So F) as [K _]. destruct (K (R _ _ _ _ Fa Fc)) as (s & t & P & Pm & _ & Q).
  exists (lines (map transaction_string t1)), (lines (map transaction_string t2)), (lines (map transaction_string t)).
  split; [exact Q1|]. split; [exact Q2|]. split; [exact Q|]. unfold lines. rewrite !map_map, <- map_app. apply Permutation_map.
  rewrite Pm, Pm1, Pm2. apply (picks_split E (with_dates O a b) (with_dates O b c) (with_dates O a c) fs (txns 0 (fst (stream E O)))); auto.
  apply Forall_forall. intros u _. exact (ranges_meet E O a b c da db dc (u_n u) (t_date (u_txn u)) C Cu Fa Fb Fc L Lb).
Qed.

Example C73_example : forall n, let E := env1 [(lit "j", text_same)] in
  flag_means (e_year E n) (lit "2021-02") (Date 2021 2 1) /\ flag_means (e_year E n) (lit "2021-03-02") (Date 2021 3 2) /\
  flag_means (e_year E n) (lit "2022") (Date 2022 1 1) /\ snd (stream E (opts0 "j")) = SOk /\
  e_local E (Date 2021 2 1) <= e_local E (Date 2021 3 2) <= e_local E (Date 2022 1 1) /\ 0 < e_local E (Date 2021 3 2).
Proof.
  intro n. cbn zeta. assert (Nm : forall s k v, length s = k -> forallb is_digit s = true -> numeral_value s = v -> numeral k s v).
  { intros s k v H1 H2 H3. split; [exact H1|]. split; [|exact H3]. rewrite forallb_forall in H2. apply Forall_forall. intros c I.
    specialize (H2 c I). unfold is_digit in H2. unfold digit. lia. }
  split; [left; apply (SmartYearMonth _ 45 (lit "2021") (lit "02") 2021 2); [now left|apply Nm; reflexivity|apply Nm; reflexivity|lia]|].
  split; [left; apply (SmartFull _ 45); [now left| |]|].
  - apply (YMD 45 (Date 2021 3 2) (lit "2021") (lit "03") (lit "02")); apply Nm; reflexivity.
  - left. cbn. split; [auto|lia].
  - split; [left; apply SmartYear; apply Nm; reflexivity|]. split; [vm_compute; reflexivity|]. vm_compute. split; [split; discriminate|reflexivity].
Qed.

(** ** C74: --file and LEDGER_FILE *)

Definition with_ledger (E : env) (l : option str) : env :=
  Env (e_unicode E) (e_fs E) (e_depth E) l (e_re_ok E) (e_re_match E) (e_year E) (e_tomorrow E) (e_local E)
    (e_order E) (e_tree_order E) (e_sort E) (e_now E).
Definition with_file (O : opts) (f : str) : opts :=
  Opts f (o_begin O) (o_end O) (o_current O) (o_args O) (o_flatten O) (o_collapse O) (o_show_zero O).
Definition all_cmds : list (env -> opts -> outcome) := [balance_cmd; print_cmd; accounts_cmd; payees_cmd; stats_cmd; budget_cmd].

Lemma parse_moved : forall E O l f D th ph (s : D), journal_path (with_ledger E l) (with_file O f) = journal_path E O ->
  parse_cmd (with_ledger E l) (with_file O f) th ph s = parse_cmd E O th ph s.
Proof.
  intros E O l f D th ph s H. unfold journal_path in H. cbn [with_ledger with_file e_ledger_file o_file] in H.
  unfold parse_cmd. cbn [with_ledger with_file e_ledger_file o_file]. rewrite H. reflexivity.
Qed.

(** What a command does depends on where the journal is named only through the
    name found: --file if it is given, LEDGER_FILE otherwise. *)
Theorem C74_journal_named : forall E O l f cmd, In cmd all_cmds ->
  journal_path (with_ledger E l) (with_file O f) = journal_path E O -> cmd (with_ledger E l) (with_file O f) = cmd E O.
Proof.
  intros E O l f cmd I H.
  assert (M : forall args, makeFilters (with_ledger E l) args = makeFilters E args).
  { induction args as [|a args IH]; [reflexivity|]. cbn [makeFilters]. rewrite IH. reflexivity. }
  destruct I as [<-|[<-|[<-|[<-|[<-|[<-|[]]]]]]].
  - unfold balance_cmd, with_filters. rewrite M. change (o_args (with_file O f)) with (o_args O). destruct (makeFilters E (o_args O)); try reflexivity.
    unfold balance_run. rewrite parse_moved by exact H. reflexivity.
  - unfold print_cmd, with_filters. rewrite M. change (o_args (with_file O f)) with (o_args O). destruct (makeFilters E (o_args O)); try reflexivity.
    unfold print_run. rewrite parse_moved by exact H. reflexivity.
  - unfold accounts_cmd, with_filters. rewrite M. change (o_args (with_file O f)) with (o_args O). destruct (makeFilters E (o_args O)); try reflexivity.
    unfold accounts_run. rewrite parse_moved by exact H. reflexivity.
  - unfold payees_cmd, with_filters. rewrite M. change (o_args (with_file O f)) with (o_args O). destruct (makeFilters E (o_args O)); try reflexivity.
    unfold payees_run. rewrite parse_moved by exact H. reflexivity.
  - unfold stats_cmd, with_filters. rewrite M. change (o_args (with_file O f)) with (o_args O). destruct (makeFilters E (o_args O)); try reflexivity.
    unfold stats_run. rewrite parse_moved by exact H. reflexivity.
  - unfold budget_cmd, with_filters. rewrite M. change (o_args (with_file O f)) with (o_args O). destruct (makeFilters E (o_args O)); try reflexivity.
    unfold budget_run. rewrite parse_moved by exact H. reflexivity.
Qed.
Corollary C74_flag_wins : forall E O l f cmd, In cmd all_cmds -> f <> [] ->
  cmd (with_ledger E l) (with_file O f) = cmd E (with_file O f).
Proof.
  intros E O l f cmd I N. apply (C74_journal_named E (with_file O f) l f cmd I).
  unfold journal_path. cbn. destruct f; [contradiction|reflexivity].
Qed.
Corollary C74_variable : forall E O f cmd, In cmd all_cmds -> f <> [] ->
  cmd (with_ledger E (Some f)) (with_file O []) = cmd E (with_file O f).
Proof.
  intros E O f cmd I N. apply (C74_journal_named E (with_file O f) (Some f) [] cmd I).
  unfold journal_path. cbn. destruct f; [contradiction|reflexivity].
Qed.
(** With neither, every command stops before reading anything. *)
Theorem C74_neither : forall E O cmd fs, In cmd all_cmds -> filters_for E (o_args O) fs -> journal_path E O = None ->
  cmd E O = Outcome [] (SErr ENoJournal).
Proof.
  intros E O cmd fs I F H. apply makeFilters_spec in F.
  assert (P : forall D th ph (s : D), parse_cmd E O th ph s = (s, SErr ENoJournal)).
  { intros D th ph s. unfold parse_cmd. unfold journal_path in H. rewrite H. reflexivity. }
  destruct I as [<-|[<-|[<-|[<-|[<-|[<-|[]]]]]]].
  - unfold balance_cmd, with_filters. rewrite F. unfold balance_run. rewrite P. reflexivity.
  - unfold print_cmd, with_filters. rewrite F. unfold print_run. rewrite P. reflexivity.
  - unfold accounts_cmd, with_filters. rewrite F. unfold accounts_run. rewrite P. reflexivity.
  - unfold payees_cmd, with_filters. rewrite F. unfold payees_run. rewrite P. reflexivity.
  - unfold stats_cmd, with_filters. rewrite F. unfold stats_run. rewrite P. reflexivity.
  - unfold budget_cmd, with_filters. rewrite F. unfold budget_run. rewrite P. reflexivity.
Qed.
Example C74_example : let E := env1 full_files in
  balance_cmd (with_ledger E (Some (lit "j"))) (with_file (opts0 "k") []) = balance_cmd E (opts0 "j") /\
  r_out (balance_cmd E (opts0 "j")) <> [] /\
  payees_cmd (with_ledger E None) (with_file (opts0 "k") []) = Outcome [] (SErr ENoJournal).
Proof.
  split; [|split].
  - exact (C74_variable (env1 full_files) (opts0 "k") (lit "j") balance_cmd (or_introl eq_refl) ltac:(discriminate)).
  - vm_compute. discriminate.
  - vm_compute. reflexivity.
Qed.
