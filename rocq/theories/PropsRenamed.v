(** * Renaming accounts: C124 *)
From Verif Require Import Base BaseFacts Utf8 Unicode GoTime Strconv Display Journal Lexer Parser ParserFacts Account Reporting Cmd Spec TextSpec
    JournalText TreeSpec TreeFacts ReportSpec ReportFacts CollapseFacts CmdSpec CmdFacts BalanceFacts FlatSpec Sample PropsParser PropsCmd PropsBalance PropsPrint PropsReread
  PropsAgain PropsWhere PropsConcat PropsJoin PropsOrder PropsApart PropsFigures PropsInside.

(** A renaming of the parts of account names: one to one, and it leaves the two
    reserved names to themselves. *)
Record renaming (f : str -> str) : Prop := {
  rn_one : forall a b, f a = f b -> a = b;
  rn_root : forall c, f c = lit "_root_" <-> c = lit "_root_";
  rn_budget : forall c, f c = lit "_budget_root_" <-> c = lit "_budget_root_" }.

(** The same amount posted to the account renamed; a transaction, and a journal,
    with such postings. *)
Definition renamed_posting (f : str -> str) (p p' : posting) : Prop := components p' = map f (components p) /\ po_amount p' = po_amount p.
Definition renamed (f : str -> str) (us us' : list used) : Prop := Forall2 (fun u u' => t_date (u_txn u') = t_date (u_txn u) /\ u_n u' = u_n u /\
  Forall2 (renamed_posting f) (t_postings (u_txn u)) (t_postings (u_txn u'))) us us'.

(** A line of a balance report: its account, the amount in its column, the depth it
    is indented to and the names it carries. *)
Record line := Line { l_account : list str; l_amount : str; l_indent : nat; l_names : list str }.
Definition line_text (l : line) : str := l_amount l ++ [32; 32] ++ rep (2 * l_indent l) 32 ++ join [58] (l_names l).
Definition rename (f : str -> str) (l : line) : line := Line (map f (l_account l)) (l_amount l) (l_indent l) (map f (l_names l)).
(** In depth-first order, siblings in byte order; each carries the last names of its account. *)
Definition laid_out (ls : list line) : Prop :=
  StronglySorted path_lt (map l_account ls) /\ Forall (fun l => exists above, l_account l = above ++ l_names l) ls.

Section Renaming.
Variable f : str -> str.
Hypothesis R : renaming f.
Notation F := (map f).

Lemma eqb_renamed : forall a b, str_eqb (f a) (f b) = str_eqb a b.
Proof.
  intros a b. apply eq_true_iff_eq. rewrite !str_eqb_eq. split; [apply (rn_one f R)|congruence].
Qed.
Lemma map_one : forall q r, F q = F r -> q = r.
Proof. induction q as [|a q IH]; intros [|b r] H; try discriminate; [reflexivity|]. cbn in H. injection H as A B. now rewrite (rn_one f R _ _ A), (IH _ B). Qed.
Lemma prefixb_renamed : forall q p, prefixb (F q) (F p) = prefixb q p.
Proof. induction q as [|a q IH]; intros [|b p]; cbn; auto. now rewrite eqb_renamed, IH. Qed.
Lemma prefix_image : forall q p, prefix q (F p) -> exists r, q = F r /\ prefix r p.
Proof.
  intros q p [s H]. apply map_eq_app in H as (a & b & -> & <- & <-). exists a. split; [reflexivity|]. now exists b.
Qed.

Variables ps ps' : list posting.
Hypothesis P : Forall2 (renamed_posting f) ps ps'.

Lemma below_renamed : forall q p p', renamed_posting f p p' -> below (F q) p' = below q p.
Proof. intros q p p' [C _]. unfold below. now rewrite C, prefixb_renamed. Qed.
Lemma filter_renamed : forall q l l', Forall2 (renamed_posting f) l l' -> Forall2 (renamed_posting f) (filter (below q) l) (filter (below (F q)) l').
Proof.
  intros q l l' H. induction H as [|p p' l l' Hp H IH]; [constructor|]. cbn [filter]. rewrite (below_renamed q p p' Hp). destruct (below q p); [now constructor|exact IH].
Qed.
Lemma amounts_renamed : forall l l', Forall2 (renamed_posting f) l l' -> total l' = total l /\ first_commodity l' = first_commodity l.
Proof.
  intros l l' H.
  assert (Q : map quantity l' = map quantity l /\ map commodity_of l' = map commodity_of l).
  { induction H as [|p p' l l' [_ A] H [I J]]; [split; reflexivity|]. cbn [map]. unfold quantity at 1 3, commodity_of at 1 3. rewrite A, I, J. split; reflexivity. }
  destruct Q as [Q1 Q2]. unfold total, first_commodity, named_commodities. now rewrite Q1, Q2.
Qed.
Lemma total_renamed : forall q, total (filter (below (F q)) ps') = total (filter (below q) ps).
Proof. intro q. apply amounts_renamed, filter_renamed, P. Qed.
Lemma commodity_renamed : forall q, first_commodity (filter (below (F q)) ps') = first_commodity (filter (below q) ps).
Proof. intro q. apply amounts_renamed, filter_renamed, P. Qed.
Lemma whole_renamed : total ps' = total ps.
Proof. apply amounts_renamed, P. Qed.

Lemma up_renamed : forall q, up (F q) = map F (up q).
Proof. induction q as [|k q IH]; [reflexivity|]. cbn [map up]. rewrite IH, map_app, !map_map. reflexivity. Qed.
Lemma complaints_renamed : forall l l', Forall2 (renamed_posting f) l l' -> forall b b', Forall2 (renamed_posting f) b b' -> complaints b' l' = complaints b l.
Proof.
  intros l l' H. induction H as [|p p' l l' Hp H IH]; intros b b' B; [reflexivity|]. cbn [complaints].
  assert (B2 : Forall2 (renamed_posting f) (b ++ [p]) (b' ++ [p'])) by (apply Forall2_app; [exact B|constructor; [exact Hp|constructor]]).
  f_equal; [|now apply IH]. rewrite (proj1 Hp), up_renamed. generalize (up (components p)). intro qs.
  induction qs as [|q qs IHq]; [reflexivity|]. cbn [map flat_map]. f_equal; [|exact IHq]. unfold complaint.
  rewrite (proj2 (amounts_renamed _ _ (filter_renamed q _ _ B2))). unfold commodity_of. now rewrite (proj2 Hp).
Qed.

Lemma in_renamed : forall l l', Forall2 (renamed_posting f) l l' -> (forall p, In p l -> exists p', In p' l' /\ renamed_posting f p p') /\ (forall p', In p' l' -> exists p, In p l /\ renamed_posting f p p').
Proof.
  intros l l' H. induction H as [|p p' l l' Hp H [I J]]; [split; intros ? []|]. split.
  - intros x [<-|X]; [exists p'; split; [now left|exact Hp]|]. destruct (I x X) as (y & Y & Z). exists y. split; [now right|exact Z].
  - intros x [<-|X]; [exists p; split; [now left|exact Hp]|]. destruct (J x X) as (y & Y & Z). exists y. split; [now right|exact Z].
Qed.
Lemma last_renamed : forall q, q <> [] -> forall d d', last (F q) d = f (last q d').
Proof. induction q as [|a q IH]; intros N d d'; [contradiction|]. destruct q as [|b q]; [reflexivity|]. exact (IH ltac:(discriminate) d d'). Qed.

Variable z : bool.
Lemma shown_renamed : forall q, shown z ps' (F q) <-> shown z ps q.
Proof.
  intro q. unfold shown. split; intros [(p & I & X) H].
  - split.
    + destruct (proj2 (in_renamed _ _ P) p I) as (p0 & I0 & [C _]). exists p0. split; [exact I0|]. rewrite C in X. apply prefixb_iff. rewrite <- prefixb_renamed. now apply prefixb_iff.
    + destruct H as [H|H]; [now left|]. right. intros r N X1. specialize (H (F r)). rewrite total_renamed in H.
      destruct H as [H|H]; [destruct r; [contradiction|discriminate]|apply prefixb_iff; rewrite prefixb_renamed; now apply prefixb_iff|now left|].
      right. rewrite (last_renamed r N [] []) in H. now apply (rn_root f R).
  - split.
    + destruct (proj1 (in_renamed _ _ P) p I) as (p1 & I1 & [C _]). exists p1. split; [exact I1|]. rewrite C. apply prefixb_iff. rewrite prefixb_renamed. now apply prefixb_iff.
    + destruct H as [H|H]; [now left|]. right. intros r N X1. destruct (prefix_image _ _ X1) as (r0 & -> & X0). rewrite total_renamed.
      destruct (H r0) as [H1|H1]; [intros ->; now apply N|exact X0|now left|]. right. rewrite (last_renamed r0 ltac:(intros ->; now apply N) [] []). now apply (rn_root f R).
Qed.
Lemma shown_image : forall q', shown z ps' q' -> exists q, q' = F q.
Proof.
  intros q' [(p & I & X) _]. destruct (proj2 (in_renamed _ _ P) p I) as (p0 & _ & [C _]). rewrite C in X. destruct (prefix_image _ _ X) as (r & -> & _). eauto.
Qed.
Lemma alone_renamed : forall q, alone (shown z ps') (F q) <-> alone (shown z ps) q.
Proof.
  intro q.
  assert (S1 : forall k, shown z ps' (F q ++ [f k]) <-> shown z ps (q ++ [k])).
  { intro k. rewrite <- shown_renamed. now rewrite map_app. }
  assert (S2 : forall k', shown z ps' (F q ++ [k']) -> exists k, k' = f k).
  { intros k' X. apply shown_image in X as (r & X). symmetry in X. apply map_eq_app in X as (a & b & _ & _ & X). destruct b as [|k [|? ?]]; try discriminate. injection X as X. eauto. }
  split.
  - intros (k & H). destruct (S2 k (proj2 (H k) eq_refl)) as (k0 & ->). exists k0. intro k'. rewrite <- S1, H. split; [apply (rn_one f R)|congruence].
  - intros (k & H). exists (f k). intro k'. split.
    + intro X. destruct (S2 _ X) as (k0 & ->). f_equal. apply H. now apply S1.
    + intros ->. apply S1. now apply H.
Qed.
Lemma folded_renamed : forall q n names, folded (alone (shown z ps)) q n names -> folded (alone (shown z ps')) (F q) n (F names).
Proof.
  intros q n names H. induction H as [k|q k n names H IH A|q k n names H IH A]; [constructor|rewrite !map_app; cbn [map]; apply FoldOn; [exact IH|now apply alone_renamed]|].
  rewrite map_app. cbn [map]. apply FoldNew with (names := F names); [exact IH|]. now rewrite alone_renamed.
Qed.
Lemma folded_back : forall q' n names', folded (alone (shown z ps')) q' n names' -> forall q, q' = F q -> exists names, names' = F names /\ folded (alone (shown z ps)) q n names.
Proof.
  intros q' n names' H. induction H as [k|q' k n names H IH A|q' k n names H IH A]; intros q Q; symmetry in Q.
  - destruct q as [|k0 [|? ?]]; try discriminate. injection Q as <-. exists [k0]. split; [reflexivity|constructor].
  - apply map_eq_app in Q as (q0 & b & -> & <- & Qb). destruct b as [|k0 [|? ?]]; try discriminate. injection Qb as <-. destruct (IH q0 eq_refl) as (ns & -> & Fo).
    exists (ns ++ [k0]). split; [now rewrite map_app|]. apply FoldOn; [exact Fo|now apply alone_renamed].
  - apply map_eq_app in Q as (q0 & b & -> & <- & Qb). destruct b as [|k0 [|? ?]]; try discriminate. injection Qb as <-. destruct (IH q0 eq_refl) as (ns & -> & Fo).
    exists [k0]. split; [reflexivity|]. apply FoldNew with (names := ns); [exact Fo|]. now rewrite <- alone_renamed.
Qed.
Lemma visible_renamed : forall q, visible (F q) = F (visible q).
Proof.
  assert (E : forall c, reservedb (f c) = reservedb c).
  { intro c. unfold reservedb. f_equal; apply eq_true_iff_eq; rewrite !str_eqb_eq; apply R. }
  assert (X : forall l, existsb reservedb (F l) = existsb reservedb l) by (induction l as [|c l IH]; [reflexivity|]; cbn [map existsb]; now rewrite E, IH).
  assert (Rl : forall l, removelast (F l) = F (removelast l)) by (induction l as [|c [|d l] IH]; [reflexivity|reflexivity|]; cbn [map removelast] in *; now rewrite IH).
  induction q as [|c q IH]; [reflexivity|]. cbn [visible map]. change (f c :: F q) with (F (c :: q)). rewrite Rl, X. destruct (existsb reservedb (removelast (c :: q))); [exact IH|reflexivity].
Qed.
End Renaming.

(** ** The lines of a report *)
Definition laid (O : opts) (ps : list posting) (q : list str) (n : nat) (names : list str) : Prop :=
  let sh := shown (o_show_zero O) ps in
  if o_flatten O then (q = [] \/ sh q) /\ (forall k, ~ sh (q ++ [k])) /\ n = 0%nat /\ names = visible q
  else if o_collapse O then q <> [] /\ sh q /\ ~ alone sh q /\ folded (alone sh) q n names
  else q <> [] /\ sh q /\ n = (length q - 1)%nat /\ names = [last q (lit "_root_")].
Lemma laid_fun : forall O ps q n names n' names', laid O ps q n names -> laid O ps q n' names' -> n = n' /\ names = names'.
Proof.
  intros O ps q n names n' names'. unfold laid. destruct (o_flatten O); [|destruct (o_collapse O)].
  - intros (_ & _ & -> & ->) (_ & _ & -> & ->). auto.
  - intros (_ & _ & _ & H) (_ & _ & _ & H'). eapply folded_fun; eauto.
  - intros (_ & _ & -> & ->) (_ & _ & -> & ->). auto.
Qed.
Lemma laid_entry : forall O ps r, entry O ps r <-> snd (fst r) = wrap64 (total (filter (below (account_of r)) ps)) /\
  exists n names, laid O ps (account_of r) n names /\ snd r = rep (2 * n) 32 ++ join [58] names.
Proof.
  intros O ps r. unfold entry, laid. destruct (o_flatten O); [|destruct (o_collapse O)]; cbv zeta.
  - split; intros [A B]; (split; [exact A|]).
    + destruct B as (B1 & B2 & B3). exists 0%nat, (visible (account_of r)). auto.
    + destruct B as (n & names & (B1 & B2 & -> & ->) & ->). auto.
  - split; intros [A B]; (split; [exact A|]).
    + destruct B as (n & names & B1 & B2 & B3 & B4 & B5). exists n, names. auto.
    + destruct B as (n & names & (B1 & B2 & B3 & B4) & B5). exists n, names. auto.
  - split; intros [A B]; (split; [exact A|]).
    + destruct B as (B1 & B2 & B3). exists (length (account_of r) - 1)%nat, [last (account_of r) (lit "_root_")]. auto.
    + destruct B as (n & names & (B1 & B2 & -> & ->) & ->). auto.
Qed.
Lemma laid_names : forall O ps q n names, laid O ps q n names -> exists above, q = above ++ names.
Proof.
  intros O ps q n names. unfold laid. destruct (o_flatten O); [|destruct (o_collapse O)].
  - intros (_ & _ & _ & ->). induction q as [|c q [a IH]]; [now exists []|]. cbn [visible]. destruct (existsb _ _); [exists (c :: a); cbn; now rewrite <- IH|now exists []].
  - intros (_ & _ & _ & H). induction H as [k|q k n names H [a IH] A|q k n names H IH A]; [now exists []|exists a; now rewrite IH, <- app_assoc|now exists q].
  - intros (N & _ & _ & ->). exists (removelast q). now apply app_removelast_last.
Qed.

(** One report, in lines. *)
Definition line_of (ps : list posting) (q : list str) (n : nat) (names : list str) : line :=
  Line q (column (first_commodity (filter (below q) ps)) (wrap64 (total (filter (below q) ps)))) n names.
Lemma report_lines : forall O ps rows, listed rows -> (forall r, In r rows <-> entry O ps r) ->
  exists ls, laid_out ls /\ (forall l, In l ls <-> exists n names, laid O ps (l_account l) n names /\ l = line_of ps (l_account l) n names) /\
    map (fun r : PropsFigures.row => column (first_commodity (filter (below (account_of r)) ps)) (snd (fst r)) ++ [32; 32] ++ snd r) rows = map line_text ls.
Proof.
  intros O ps rows So In_.
  assert (X : forall rs, (forall r, In r rs -> entry O ps r) -> exists ls, map l_account ls = map account_of rs /\
    Forall (fun l => exists n names, laid O ps (l_account l) n names /\ l = line_of ps (l_account l) n names) ls /\
    map (fun r : PropsFigures.row => column (first_commodity (filter (below (account_of r)) ps)) (snd (fst r)) ++ [32; 32] ++ snd r) rs = map line_text ls).
  { induction rs as [|r rs IH]; intro H; [exists []; split; [reflexivity|split; [constructor|reflexivity]]|].
    destruct IH as (ls & A & B & C); [intros; apply H; now right|]. destruct (proj1 (laid_entry O ps r) (H r (or_introl eq_refl))) as (Q & n & names & L & T).
    exists (line_of ps (account_of r) n names :: ls). cbn [map]. rewrite A, C. split; [reflexivity|]. split; [constructor; [exists n, names; auto|exact B]|].
    f_equal. rewrite T, Q. unfold line_text, line_of. reflexivity. }
  destruct (X rows) as (ls & A & B & C); [intros r I; now apply In_|]. exists ls. split; [|split; [|exact C]].
  - split; [rewrite A; exact So|]. eapply Forall_impl; [|exact B]. intros l (n & names & L & ->). cbn [l_account l_names line_of]. eapply laid_names. exact L.
  - intro l. split; [intro I; rewrite Forall_forall in B; now apply B|]. intros (n & names & L & Q).
    assert (I : In (l_account l) (map account_of rows)).
    { apply in_map_iff. exists (l_account l, wrap64 (total (filter (below (l_account l)) ps)), rep (2 * n) 32 ++ join [58] names). split; [reflexivity|].
      apply In_. apply laid_entry. split; [reflexivity|]. exists n, names. auto. }
    rewrite <- A in I. apply in_map_iff in I as (l0 & Q0 & I0). rewrite Forall_forall in B. destruct (B l0 I0) as (n0 & names0 & L0 & E0).
    rewrite Q0 in *. destruct (laid_fun _ _ _ _ _ _ _ L L0) as [-> ->]. now rewrite Q, <- E0.
Qed.
Lemma lines_nodup : forall ls, laid_out ls -> NoDup ls.
Proof.
  intros ls [S _]. apply (NoDup_map_inv l_account). induction S as [|q qs S IH Fq]; constructor; [|exact IH]. intro I. rewrite Forall_forall in Fq. exact (path_lt_irrefl _ (Fq _ I)).
Qed.

Section Lines.
Variable f : str -> str.
Hypothesis R : renaming f.
Variables ps ps' : list posting.
Hypothesis P : Forall2 (renamed_posting f) ps ps'.
Variable O : opts.

Lemma laid_renamed : forall q n names, laid O ps q n names -> laid O ps' (map f q) n (map f names).
Proof.
  intros q n names. unfold laid. pose proof (shown_renamed f R ps ps' P (o_show_zero O)) as S. destruct (o_flatten O); [|destruct (o_collapse O)].
  - intros (A & B & -> & ->). split; [destruct A as [-> |A]; [now left|right; now apply S]|]. split; [|split; [reflexivity|symmetry; apply (visible_renamed f R)]].
    intros k X. destruct (shown_image f ps ps' P _ _ X) as (r & Q). symmetry in Q. apply map_eq_app in Q as (a & b & -> & Qa & Qb). apply (map_one f R) in Qa. subst a.
    destruct b as [|k0 [|? ?]]; try discriminate. injection Qb as <-. apply (B k0). apply S. now rewrite map_app.
  - intros (N & A & B & C). split; [destruct q; [contradiction|discriminate]|]. split; [now apply S|]. split; [now rewrite (alone_renamed f R ps ps' P)|]. now apply (folded_renamed f R ps ps' P).
  - intros (N & A & -> & ->). split; [destruct q; [contradiction|discriminate]|]. split; [now apply S|]. rewrite map_length. split; [reflexivity|]. cbn [map]. f_equal. symmetry. now apply last_renamed.
Qed.
Lemma laid_back : forall q' n names', laid O ps' q' n names' ->
  exists q names, q' = map f q /\ names' = map f names /\ laid O ps q n names.
Proof.
  intros q' n names' L.
  assert (I : exists q, q' = map f q).
  { revert L. unfold laid. destruct (o_flatten O); [|destruct (o_collapse O)].
    - intros ([-> |A] & _); [now exists []|]. now apply (shown_image f ps ps' P) in A.
    - intros (_ & A & _). now apply (shown_image f ps ps' P) in A.
    - intros (_ & A & _). now apply (shown_image f ps ps' P) in A. }
  destruct I as (q & ->).
  assert (X : exists n0 names, laid O ps q n0 names).
  { revert L. unfold laid. pose proof (shown_renamed f R ps ps' P (o_show_zero O)) as S. destruct (o_flatten O); [|destruct (o_collapse O)].
    - intros (A & B & _). exists 0%nat, (visible q). split; [destruct A as [A|A]; [left; now destruct q|right; now apply S]|]. split; [|auto].
      intros k X. apply (B (f k)). apply S in X. now rewrite map_app in X.
    - intros (N & A & B & C). assert (N' : q <> []) by (intros ->; now apply N). destruct (folded_back f R ps ps' P _ _ _ _ C q eq_refl) as (names & _ & Fo).
      exists n, names. split; [exact N'|]. split; [now apply S|]. split; [|exact Fo]. now rewrite <- (alone_renamed f R ps ps' P).
    - intros (N & A & _). exists (length q - 1)%nat, [last q (lit "_root_")]. split; [intros ->; now apply N|]. split; [now apply S|auto]. }
  destruct X as (n0 & names & L0). destruct (laid_fun _ _ _ _ _ _ _ L (laid_renamed _ _ _ L0)) as [-> ->]. exists q, names. auto.
Qed.
End Lines.

(** ** C124 *)
Lemma renamed_picks : forall f E E' O us us', same_clock E E' -> renamed f us us' -> forall sel, picks E O [] us sel ->
  exists sel', picks E' O [] us' sel' /\ Forall2 (renamed_posting f) (taken sel) (taken sel').
Proof.
  intros f E E' O us us' C S. induction S as [|u u' us us' (D & N & Ps) S IH]; intros sel P.
  - inversion P. exists []. split; constructor.
  - inversion P as [|? ? ? No Q|? ? ? ps W Hh Pm Wh Q]; subst; destruct (IH _ Q) as (sel' & Q' & T).
    + exists sel'. split; [|exact T]. apply PickNot; [|exact Q']. left. destruct No as [No|No]; [|discriminate]. intro W. apply No. rewrite D, N in W.
      exact (books_within E' E O _ _ (clock_sym _ _ C) W).
    + exists ((u', t_postings (u_txn u')) :: sel'). split.
      * apply PickIt; auto. rewrite D, N. exact (books_within E E' O _ _ C W).
      * unfold taken. cbn [flat_map snd]. apply Forall2_app; [|exact T]. now rewrite (Wh (or_introl eq_refl)).
Qed.
Lemma renamed_good : forall f E E' O us us', same_clock E E' -> renamed f us us' ->
  Forall (fun u => good_flags E O (u_n u)) us -> Forall (fun u => good_flags E' O (u_n u)) us'.
Proof.
  intros f E E' O us us' C S G. assert (X : forall n, good_flags E O n -> good_flags E' O n).
  { intros n. unfold good_flags, good_flag. rewrite !(proj1 C). tauto. }
  induction S as [|u u' us us' (_ & N & _) S IH]; inversion G; subst; constructor; [rewrite N; now apply X|now apply IH].
Qed.
Lemma picks_one : forall E O us s s', picks E O [] us s -> picks E O [] us s' -> taken s = taken s'.
Proof.
  intros E O us s s' H. revert s'. induction H as [|u us s No _ IH|u us s ps W Ht Pm Wh _ IH]; intros s' H'; inversion H' as [|? ? ? No' Q|? ? ? ps' W' Ht' Pm' Wh' Q]; subst; auto.
  - exfalso. destruct No as [No|No]; [contradiction|discriminate].
  - exfalso. destruct No' as [No|No]; [contradiction|discriminate].
  - unfold taken. cbn [flat_map snd]. rewrite (Wh (or_introl eq_refl)), (Wh' (or_introl eq_refl)). f_equal. now apply IH.
Qed.

Definition keeps_order (f : str -> str) : Prop := forall a b, str_ltb a b = true -> str_ltb (f a) (f b) = true.
Definition report_of (said : list str) (ls : list line) (t : str) : list str :=
  said ++ [unlines (map line_text ls) ++ [10]; lit "--------------------" ++ [10]; t].

(** The balance of a journal with its accounts renamed has the same lines, with
    the names replaced; they are in the same order if the renaming keeps the order
    of names. *)
Theorem C124_balance : forall f E E' O, renaming f -> sane_clock E -> orders E -> orders E' -> same_clock E E' -> o_args O = [] ->
  renamed f (txns 0 (fst (stream E O))) (txns 0 (fst (stream E' O))) -> snd (stream E' O) = SOk -> r_status (balance_cmd E O) = SOk ->
  exists said ls ls' t, laid_out ls /\ laid_out ls' /\ Permutation ls' (map (rename f) ls) /\ (keeps_order f -> ls' = map (rename f) ls) /\
    balance_cmd E O = Outcome (report_of said ls t) SOk /\ balance_cmd E' O = Outcome (report_of said ls' t) SOk.
Proof.
  intros f E E' O R C Or Or' Cl A S Ok' Ok. assert (C' : sane_clock E') by (intro n; rewrite (proj1 Cl n); apply C).
  assert (Fl : filters_for E (o_args O) []) by (rewrite A; split; constructor). assert (Fl' : filters_for E' (o_args O) []) by (rewrite A; split; constructor).
  destruct (proj1 (proj1 (C61_balance E O [] C Or Fl)) Ok) as [Re (sel & P & Pr)].
  assert (Re' : CmdSpec.readable E' O) by (split; [exact Ok'|exact (renamed_good f E E' O _ _ Cl S (proj2 Re))]).
  destruct (renamed_picks f E E' O _ _ Cl S sel P) as (sel' & P' & T).
  assert (Pr' : Forall priced (taken sel')).
  { clear - T Pr. revert Pr. generalize dependent (taken sel'). generalize (taken sel). intros l l' T. induction T as [|p p' l l' [_ X] T IH]; intro Pr; [constructor|].
    inversion Pr; subst. constructor; [unfold priced in *; now rewrite X|auto]. }
  assert (St : r_status (balance_cmd E' O) = SOk) by (apply (C61_balance E' O [] C' Or' Fl'); eauto).
  destruct (one_report E O [] C Or Fl Ok) as (s & rows & Ps & So & I & Q). destruct (one_report E' O [] C' Or' Fl' St) as (s' & rows' & Ps' & So' & I' & Q').
  rewrite <- (picks_one _ _ _ _ _ P Ps) in *. rewrite <- (picks_one _ _ _ _ _ P' Ps') in *.
  destruct (report_lines O _ _ So I) as (ls & L & M & X). destruct (report_lines O _ _ So' I') as (ls' & L' & M' & X').
  unfold reported in Q, Q'. rewrite X in Q. rewrite X' in Q'.
  rewrite (complaints_renamed f R _ _ T [] [] (Forall2_nil _)), (whole_renamed f _ _ T) in Q'.
  assert (Pm : Permutation ls' (map (rename f) ls)).
  { apply NoDup_Permutation; [now apply lines_nodup| |].
    - apply (NoDup_map_inv l_account). rewrite map_map. cbn [rename l_account].
      pose proof (lines_nodup ls L) as Nd. destruct L as [L _]. clear - L R. remember (map l_account ls) as qs eqn:Eq. 
      assert (N : NoDup qs). { clear - L. induction L as [|q qs S IH Fq]; constructor; [|exact IH]. intro I. rewrite Forall_forall in Fq. exact (path_lt_irrefl _ (Fq _ I)). }
      rewrite <- (map_map l_account (map f)), <- Eq. clear - N R. induction N as [|q qs Ni N IH]; [constructor|]. cbn [map]. constructor; [|exact IH].
      intro J. apply in_map_iff in J as (r & Er & J). apply (map_one f R) in Er. now subst.
    - intro l'. rewrite M', in_map_iff. split.
      + intros (n & names & La & El). destruct (laid_back f R _ _ T O _ _ _ La) as (q & ns & Eq & -> & Lq).
        exists (line_of (taken sel) q n ns). split.
        * rewrite El, Eq. unfold rename, line_of. cbn [l_account l_amount l_indent l_names]. now rewrite (total_renamed f R _ _ T), (commodity_renamed f R _ _ T).
        * apply M. exists n, ns. auto.
      + intros (l & <- & Il). apply M in Il as (n & names & La & El). exists n, (map f names). split; [rewrite El; now apply (laid_renamed f R _ _ T)|].
        rewrite El. unfold rename, line_of. cbn [l_account l_amount l_indent l_names]. now rewrite (total_renamed f R _ _ T), (commodity_renamed f R _ _ T). }
  exists (complaints [] (taken sel)), ls, ls', (column [] (wrap64 (total (taken sel))) ++ [10]).
  split; [exact L|]. split; [exact L'|]. split; [exact Pm|]. split.
  - intro K.
    assert (Lt : forall q r, path_lt q r -> path_lt (map f q) (map f r)) by (intros q r H; induction H; cbn [map]; [constructor|constructor; now apply K|now constructor]).
    apply (sorted_perm_unique (fun a b => path_lt (l_account a) (l_account b))).
    + intros a b _ _ H1 H2. destruct (path_lt_irrefl _ (path_lt_trans _ _ H1 _ H2)).
    + destruct L' as [L' _]. clear - L'. remember (map l_account ls') as qs. revert ls' Heqqs. induction L' as [|q qs S IH Fq]; intros [|l ls] Q; try discriminate; [constructor|].
      injection Q as -> ->. constructor; [now apply IH|]. rewrite Forall_map in Fq. exact Fq.
    + destruct L as [L _]. clear - L Lt. remember (map l_account ls) as qs. revert ls Heqqs. induction L as [|q qs S IH Fq]; intros [|l ls] Q; try discriminate; [constructor|].
      injection Q as -> ->. cbn [map]. constructor; [now apply IH|]. rewrite Forall_map in *. eapply Forall_impl; [|exact Fq]. intros x H. cbn [rename l_account]. now apply Lt.
    + exact Pm.
  - unfold report_of. destruct (balance_cmd E O), (balance_cmd E' O). cbn in Q, Q', Ok, St |- *. subst. auto.
Qed.

(** The accounts listed are those listed before, renamed. *)
Theorem C124_accounts : forall f E E' O, renaming f -> sane_clock E -> orders E -> orders E' -> same_clock E E' -> o_args O = [] ->
  renamed f (txns 0 (fst (stream E O))) (txns 0 (fst (stream E' O))) -> snd (stream E' O) = SOk -> r_status (accounts_cmd E O) = SOk ->
  exists names names', accounts_cmd E O = Outcome (lines names) SOk /\ accounts_cmd E' O = Outcome (lines names') SOk /\
    ascending names' /\ forall a', In a' names' <-> exists a, In a names /\ split 58 a' = map f (split 58 a).
Proof.
  intros f E E' O R C Or Or' Cl A S Ok' Ok. assert (C' : sane_clock E') by (intro n; rewrite (proj1 Cl n); apply C).
  assert (Fl : filters_for E (o_args O) []) by (rewrite A; split; constructor). assert (Fl' : filters_for E' (o_args O) []) by (rewrite A; split; constructor).
  destruct (C40_accounts E O [] C Or Fl) as [K N]. destruct (C40_accounts E' O [] C' Or' Fl') as [K' _].
  assert (Re : CmdSpec.readable E O). { destruct (readable_dec E O [] C Or) as [X|X]; [exact X|]. now apply N in X. }
  assert (Re' : CmdSpec.readable E' O) by (split; [exact Ok'|exact (renamed_good f E E' O _ _ Cl S (proj2 Re))]).
  destruct (K Re) as (s & names & P & Q & As & L). destruct (K' Re') as (s' & names' & P' & Q' & As' & L').
  exists names, names'. split; [exact Q|]. split; [exact Q'|]. split; [exact As'|].
  assert (U : forall a', uses s' a' <-> exists a, uses s a /\ split 58 a' = map f (split 58 a)).
  { clear - S P P' Cl. revert s s' P P'. induction S as [|u u' us us' (D & N & Ps) S IH]; intros s s' P P' a'.
    - inversion P. inversion P'. split; [intros (? & ? & [] & _)|intros (? & (? & ? & [] & _) & _)].
    - assert (Cn : forall v l x, uses (v :: l) x <-> (exists p, In p (t_postings (u_txn v)) /\ po_account p = x) \/ uses l x).
      { intros v l x. split.
        - intros (w & p & [<-|J] & Ip & Ea); [left; eauto|right; exists w, p; auto].
        - intros [(p & Ip & Ea)|(w & p & J & Ip & Ea)]; [exists v, p; split; [now left|auto]|exists w, p; split; [now right|auto]]. }
      assert (Hb : (exists p, In p (t_postings (u_txn u')) /\ po_account p = a') <-> exists a, (exists p, In p (t_postings (u_txn u)) /\ po_account p = a) /\ split 58 a' = map f (split 58 a)).
      { destruct (in_renamed f _ _ Ps) as [I J]. split.
        - intros (p' & Ip & <-). destruct (J p' Ip) as (p & Ip0 & [X _]). exists (po_account p). split; [eauto|exact X].
        - intros (a & (p & Ip & <-) & X). destruct (I p Ip) as (p' & Ip' & [Y _]). exists p'. split; [exact Ip'|]. unfold components in Y.
          rewrite <- (join_split 58 (po_account p')), <- (join_split 58 a'). congruence. }
      inversion P as [|? ? ? No Q|? ? ? W Q]; subst; inversion P' as [|? ? ? No' Q'|? ? ? W' Q']; subst; specialize (IH _ _ Q Q').
      + apply IH.
      + exfalso. apply No. rewrite D, N in W'. exact (books_within E' E O _ _ (clock_sym _ _ Cl) W').
      + exfalso. apply No'. rewrite D, N. exact (books_within E E' O _ _ Cl W).
      + rewrite Cn, Hb, (IH a'). split.
        * intros [(a & X & Y)|(a & X & Y)]; exists a; (split; [apply Cn|exact Y]); [now left|now right].
        * intros (a & X & Y). apply Cn in X as [X|X]; [left|right]; exists a; auto. }
  assert (L0 : forall a, In a names <-> uses s a) by (intro a; rewrite L; split; [tauto|intro X; split; [exact X|now left]]).
  assert (L0' : forall a, In a names' <-> uses s' a) by (intro a; rewrite L'; split; [tauto|intro X; split; [exact X|now left]]).
  intro a'. rewrite L0', U. split; intros (a & X & Y); exists a; (split; [now apply L0|exact Y]).
Qed.

(** Two renamings of a journal: one that keeps the order of names, one that does not. *)
Definition named_text (a b c d : String.string) : str :=
  lit "2021-03-05 Shop" ++ [10] ++ lit "    " ++ lit a ++ lit ":" ++ lit b ++ lit "    $3" ++ [10] ++ lit "    " ++ lit a ++ lit ":" ++ lit c ++ lit "    $4" ++ [10] ++ lit "    " ++ lit d ++ [10].
Definition swap_names (x y : str) (c : str) : str := if str_eqb c x then y else if str_eqb c y then x else c.
Lemma swap_renaming : forall x y, Forall unreserved [x; y] -> renaming (swap_names x y).
Proof.
  intros x y H. inversion H as [|? ? [X1 X2] H']; subst. inversion H' as [|? ? [Y1 Y2] _]; subst.
  assert (Inv : forall c, swap_names x y (swap_names x y c) = c).
  { intro c. unfold swap_names. destruct (str_eqb c x) eqn:A.
    - apply str_eqb_eq in A. subst c. destruct (str_eqb y x) eqn:B; [now apply str_eqb_eq in B|]. now rewrite str_eqb_refl.
    - destruct (str_eqb c y) eqn:B; [apply str_eqb_eq in B; subst; now rewrite str_eqb_refl|]. now rewrite A, B. }
  assert (Fix : forall r, x <> r -> y <> r -> swap_names x y r = r).
  { intros r A B. unfold swap_names. destruct (str_eqb r x) eqn:Q; [apply str_eqb_eq in Q; congruence|]. destruct (str_eqb r y) eqn:Q'; [apply str_eqb_eq in Q'; congruence|reflexivity]. }
  assert (Is : forall r, x <> r -> y <> r -> forall c, swap_names x y c = r <-> c = r).
  { intros r A B c. split; [|intros ->; auto]. intro Q. rewrite <- (Inv c), Q. auto. }
  split; [|now apply Is|now apply Is]. intros a b Q. now rewrite <- (Inv a), Q, Inv.
Qed.
Example C124_example : let f := swap_names (lit "Food") (lit "Zoo") in let E := env1 [(lit "j", named_text "Expenses" "Food" "Rent" "Cash")] in
  let E' := env1 [(lit "j", named_text "Expenses" "Zoo" "Rent" "Cash")] in let O := opts0 "j" in
  renaming f /\ sane_clock E /\ orders E /\ orders E' /\ same_clock E E' /\ o_args O = [] /\
  renamed f (txns 0 (fst (stream E O))) (txns 0 (fst (stream E' O))) /\ snd (stream E' O) = SOk /\ r_status (balance_cmd E O) = SOk /\ r_status (accounts_cmd E O) = SOk /\
  r_out (balance_cmd E O) = (lit "              $-7.00  Cash" ++ [10] ++ lit "               $7.00  Expenses" ++ [10] ++ lit "               $3.00    Food" ++ [10] ++
    lit "               $4.00    Rent" ++ [10]) :: ending /\
  r_out (balance_cmd E' O) = (lit "              $-7.00  Cash" ++ [10] ++ lit "               $7.00  Expenses" ++ [10] ++ lit "               $4.00    Rent" ++ [10] ++
    lit "               $3.00    Zoo" ++ [10]) :: ending.
Proof.
  cbn zeta. split; [apply swap_renaming; repeat constructor; discriminate|]. split; [apply env1_clock|]. split; [apply env1_orders|]. split; [apply env1_orders|]. split; [repeat split|].
  split; [reflexivity|]. split; [vm_compute; repeat constructor|]. split; [vm_compute; reflexivity|]. split; [vm_compute; reflexivity|]. split; [vm_compute; reflexivity|].
  split; vm_compute; reflexivity.
Qed.
(** Putting an x before the names from x on keeps the order of names. *)
Definition with_x (c : str) : str := match c with x :: _ => if 120 <=? x then 120 :: c else c | [] => [] end.
Lemma with_x_renaming : renaming with_x.
Proof.
  assert (Is : forall r, hd 0 r < 120 -> r <> [] -> forall c, with_x c = r <-> c = r).
  { intros [|y r] H N c; [contradiction|]. cbn in H. destruct c as [|x c]; [split; discriminate|]. cbn [with_x]. destruct (120 <=? x) eqn:X.
    - apply Z.leb_le in X. split; intro Q; injection Q as Q1 Q2; lia.
    - tauto. }
  split; [|apply Is; [vm_compute; reflexivity|discriminate]..]. intros [|x a] [|y b] H; cbn [with_x] in H; [reflexivity| | |].
  - destruct (120 <=? y); discriminate.
  - destruct (120 <=? x); discriminate.
  - destruct (120 <=? x) eqn:X, (120 <=? y) eqn:Y; [|exfalso|exfalso|exact H]; injection H; intros; subst; try discriminate; auto.
Qed.
Lemma with_x_order : keeps_order with_x.
Proof.
  intros [|x a] [|y b] H; try discriminate; cbn [with_x].
  - destruct (120 <=? y); reflexivity.
  - destruct (120 <=? x) eqn:X, (120 <=? y) eqn:Y; [|exfalso|..].
    + cbn [str_ltb] in *. now rewrite Z.ltb_irrefl, Z.eqb_refl.
    + apply Z.leb_le in X. apply Z.leb_gt in Y. cbn [str_ltb] in H. destruct (Z.ltb_spec x y); [lia|]. destruct (Z.eqb_spec x y); [lia|discriminate].
    + apply Z.leb_gt in X. cbn [str_ltb]. now apply Z.ltb_lt in X as ->.
    + exact H.
Qed.
Example C124_order_example : let E := env1 [(lit "j", named_text "Expenses" "yoga" "zoo" "Cash")] in
  let E' := env1 [(lit "j", named_text "Expenses" "xyoga" "xzoo" "Cash")] in let O := opts0 "j" in
  renaming with_x /\ keeps_order with_x /\ renamed with_x (txns 0 (fst (stream E O))) (txns 0 (fst (stream E' O))) /\ r_status (balance_cmd E O) = SOk /\
  r_out (balance_cmd E' O) = (lit "              $-7.00  Cash" ++ [10] ++ lit "               $7.00  Expenses" ++ [10] ++ lit "               $3.00    xyoga" ++ [10] ++
    lit "               $4.00    xzoo" ++ [10]) :: ending.
Proof.
  cbn zeta. split; [exact with_x_renaming|]. split; [exact with_x_order|]. split; [vm_compute; repeat constructor|]. split; vm_compute; reflexivity.
Qed.
