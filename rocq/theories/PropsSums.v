(** * C119: a balance depends only on what is posted to each account in all *)
From Verif Require Import Base BaseFacts Utf8 Unicode GoTime Strconv Display Journal JournalFacts Lexer Parser ParserFacts Account Reporting Cmd Spec TextSpec
  TreeSpec TreeFacts ReportSpec ReportFacts CmdSpec CmdFacts BalanceFacts FlatSpec Sample PropsParser PropsCmd PropsBalance PropsPrint PropsReread PropsAgain.

(** What is posted to the account [a], not counting those below it. *)
Definition sum_at (a : str) (ps : list posting) : Z := total (filter (fun p => str_eqb (po_account p) a) ps).
Definition same_sums (ps ps' : list posting) : Prop := forall a,
  zero64 (sum_at a ps' - sum_at a ps) /\ (In a (map po_account ps') <-> In a (map po_account ps)).

Fixpoint sums (l : list Z) : Z := match l with [] => 0 | x :: l' => x + sums l' end.

Lemma sum_at_cons : forall a p ps, sum_at a (p :: ps) = (if str_eqb (po_account p) a then quantity p else 0) + sum_at a ps.
Proof. intros a p ps. unfold sum_at. cbn [filter]. destruct (str_eqb (po_account p) a); [apply total_cons|reflexivity]. Qed.

Lemma sums_cons : forall p ps names, sums (map (fun a => sum_at a (p :: ps)) names) =
  sums (map (fun a => if str_eqb (po_account p) a then quantity p else 0) names) + sums (map (fun a => sum_at a ps) names).
Proof. intros p ps names. induction names as [|a names IH]; [reflexivity|]. cbn [map sums]. rewrite IH, sum_at_cons. lia. Qed.
Lemma sums_zero : forall A (l : list A), sums (map (fun _ => 0) l) = 0.
Proof. induction l; cbn; lia. Qed.
Lemma sums_one : forall x v names, NoDup names -> sums (map (fun a => if str_eqb x a then v else 0) names) = if existsb (str_eqb x) names then v else 0.
Proof.
  intros x v names N. induction N as [|a names Na N IH]; [reflexivity|]. cbn [map sums existsb]. rewrite IH.
  destruct (str_eqb x a) eqn:E; cbn [orb]; [|destruct (existsb _ _); lia]. apply str_eqb_eq in E. subst a.
  destruct (existsb (str_eqb x) names) eqn:Ex; [|lia]. apply existsb_exists in Ex as (y & I & Y). apply str_eqb_eq in Y. subst y. contradiction.
Qed.

Lemma total_by_name : forall f names ps, NoDup names -> (forall p, In p ps -> In (po_account p) names) ->
  total (filter (fun p => f (po_account p)) ps) = sums (map (fun a => sum_at a ps) (filter f names)).
Proof.
  intros f names ps N. induction ps as [|p ps IH]; intro H; [cbn; now rewrite sums_zero|].
  rewrite sums_cons, sums_one by (apply NoDup_filter, N). rewrite <- IH by (intros; apply H; now right). cbn [filter].
  assert (X : existsb (str_eqb (po_account p)) (filter f names) = f (po_account p)).
  { destruct (f (po_account p)) eqn:E.
    - apply existsb_exists. exists (po_account p). split; [|apply str_eqb_refl]. apply filter_In. split; [apply H; now left|exact E].
    - destruct (existsb _ _) eqn:Ex; [|reflexivity]. apply existsb_exists in Ex as (y & I & Y). apply str_eqb_eq in Y. subst y. apply filter_In in I as [_ I]. congruence. }
  rewrite X. destruct (f (po_account p)); [apply total_cons|lia].
Qed.

Lemma sums_equal : forall (g h : str -> Z) l, (forall a, zero64 (g a - h a)) -> zero64 (sums (map g l) - sums (map h l)).
Proof.
  intros g h l H. unfold zero64 in *. induction l as [|a l IH]; [reflexivity|]. cbn [map sums].
  replace (g a + sums (map g l) - (h a + sums (map h l))) with ((g a - h a) + (sums (map g l) - sums (map h l))) by lia.
  rewrite Z.add_mod, H, IH by discriminate. reflexivity.
Qed.
Lemma zero_wrap : forall x y, zero64 (x - y) -> wrap64 x = wrap64 y.
Proof.
  intros x y H. unfold zero64 in H. unfold wrap64. f_equal. replace (x + two63) with ((x - y) + (y + two63)) by lia.
  rewrite Z.add_mod, H, Z.add_0_l, Z.mod_mod by discriminate. reflexivity.
Qed.

Lemma sums_below : forall ps ps', same_sums ps ps' -> forall q, wrap64 (total (filter (below q) ps')) = wrap64 (total (filter (below q) ps)).
Proof.
  intros ps ps' S q. set (names := nodup str_eq_dec (map po_account ps)). assert (N : NoDup names) by apply NoDup_nodup.
  pose (f := fun a => prefixb q (split 58 a)). apply zero_wrap.
  change (below q) with (fun p => f (po_account p)).
  rewrite (total_by_name f names ps' N), (total_by_name f names ps N).
  - apply sums_equal. intro a. apply S.
  - intros p I. apply nodup_In, in_map, I.
  - intros p I. apply nodup_In. apply S. now apply in_map.
Qed.
Lemma sums_used : forall ps ps', same_sums ps ps' -> forall q, (exists p, In p ps' /\ prefix q (components p)) <-> (exists p, In p ps /\ prefix q (components p)).
Proof.
  intros ps ps' S q. unfold components. split; intros (p & I & P).
  - apply (in_map po_account) in I. apply (S (po_account p)) in I. apply in_map_iff in I as (p' & E & I). exists p'. split; [exact I|]. now rewrite E.
  - apply (in_map po_account) in I. apply (S (po_account p)) in I. apply in_map_iff in I as (p' & E & I). exists p'. split; [exact I|]. now rewrite E.
Qed.
Lemma sums_shown : forall ps ps' z q, same_sums ps ps' -> (shown z ps' q <-> shown z ps q).
Proof.
  intros ps ps' z q S. unfold shown. rewrite (sums_used ps ps' S). assert (X := sums_below ps ps' S).
  split; (intros [A B]; split; [exact A|]); (destruct B as [B|B]; [now left|right]); intros r N P; specialize (B r N P); rewrite X in *; exact B.
Qed.
Lemma below_some : forall q ps, filter (below q) ps <> [] <-> exists p, In p ps /\ prefix q (components p).
Proof.
  intros q ps. split.
  - intro N. destruct (filter (below q) ps) as [|p l] eqn:E; [contradiction|]. assert (I : In p (filter (below q) ps)) by (rewrite E; now left).
    apply filter_In in I as [I B]. exists p. split; [exact I|]. now apply prefixb_iff.
  - intros (p & I & P) E. assert (J : In p (filter (below q) ps)) by (apply filter_In; split; [exact I|now apply prefixb_iff]). rewrite E in J. destruct J.
Qed.
Lemma sums_first : forall c ps ps' q, same_sums ps ps' -> Forall priced ps -> Forall priced ps' -> uniform c ps -> uniform c ps' ->
  first_commodity (filter (below q) ps') = first_commodity (filter (below q) ps).
Proof.
  intros c ps ps' q S P P' U U'.
  assert (X : forall (Q : posting -> Prop) l, Forall Q l -> Forall Q (filter (below q) l)).
  { intros Q l H. rewrite Forall_forall in *. intros p I. apply filter_In in I as [I _]. auto. }
  rewrite (uniform_first c) by (apply X; assumption). rewrite (uniform_first c) by (apply X; assumption).
  pose proof (below_some q ps) as A. pose proof (below_some q ps') as A'. rewrite (sums_used ps ps' S) in A'.
  destruct (filter (below q) ps), (filter (below q) ps'); try reflexivity.
  - destruct (proj2 A (proj1 A' ltac:(discriminate)) eq_refl).
  - destruct (proj2 A' (proj1 A ltac:(discriminate)) eq_refl).
Qed.

Lemma sums_perm : forall ps ps' l l', same_sums ps ps' -> Permutation ps l -> Permutation ps' l' -> same_sums l l'.
Proof.
  intros ps ps' l l' S P P' a.
  assert (X : forall m m', Permutation m m' -> sum_at a m = sum_at a m').
  { clear. intros m m' H. induction H; rewrite ?sum_at_cons in *; try reflexivity; lia. }
  rewrite <- (X _ _ P), <- (X _ _ P'). split; [apply S|]. rewrite <- P, <- P'. apply S.
Qed.

(** Two runs of balance, over whatever journals, dates and arguments, whose
    postings are in one commodity: if to each account the same is posted in all,
    they end alike. *)
Theorem C119_sums : forall c E O fs sel E' O' fs' sel', sane_clock E -> orders E -> filters_for E (o_args O) fs ->
  sane_clock E' -> orders E' -> filters_for E' (o_args O') fs' ->
  CmdSpec.readable E O -> picks E O fs (txns 0 (fst (stream E O))) sel -> CmdSpec.readable E' O' -> picks E' O' fs' (txns 0 (fst (stream E' O'))) sel' ->
  Forall priced (taken sel) -> Forall priced (taken sel') -> uniform c (taken sel) -> uniform c (taken sel') -> same_sums (taken sel) (taken sel') ->
  o_flatten O' = o_flatten O -> o_collapse O' = o_collapse O -> o_show_zero O' = o_show_zero O ->
  balance_cmd E' O' = balance_cmd E O.
Proof.
  intros c E O fs sel E' O' fs' sel' C Or F C' Or' F' Re P Re' P' Pr Pr' U U' S Ofl Oc Oz.
  rewrite (balance_cmd_run _ _ _ F), (balance_cmd_run _ _ _ F').
  pose proof (balance_run_spec E O fs C Or) as K. pose proof (balance_run_spec E' O' fs' C' Or') as K'.
  destruct (balance_run E O fs) as [s r]. destruct (balance_run E' O' fs') as [s' r'].
  destruct r; [|exfalso; apply K; split; [exact Re|]; exists sel; auto..].
  destruct r'; [|exfalso; apply K'; split; [exact Re'|]; exists sel'; auto..].
  destruct K as (_ & sel1 & P1 & F1 & B & Q). destruct K' as (_ & sel1' & P1' & F1' & B' & Q').
  assert (S1 : same_sums (taken sel1) (taken sel1')) by (eapply sums_perm; [exact S|eapply hits_taken; eassumption|eapply hits_taken; eassumption]).
  assert (U1 : uniform c (taken sel1)) by (eapply uniform_perm; [eapply hits_taken; [exact P|exact P1]|exact U]).
  assert (U1' : uniform c (taken sel1')) by (eapply uniform_perm; [eapply hits_taken; [exact P'|exact P1']|exact U']).
  unfold finish. rewrite Q, Q', !(complaints_none c) by (auto; constructor). cbn [app].
  assert (Rep : forall a, report O' a = report O a) by (intro a; unfold report; now rewrite Ofl, Oc). rewrite Rep. apply (f_equal (fun l => Outcome l SOk)).
  destruct (prepared E O _ _ Or B) as [D H]. destruct (prepared E' O' _ _ Or' B') as [D' H']. rewrite Oz in H'.
  assert (Same : forall q d d', holds (taken sel1) q d -> holds (taken sel1') q d' -> stripped d' = stripped d).
  { intros q [n p [cm x] po] [n' p' [cm' x'] po'] [A1 A2 _ A4 A5] [B1 B2 _ B4 B5]. unfold stripped. cbn in *. subst.
    rewrite (sums_below _ _ S1), (sums_first c _ _ q S1 F1 F1' U1 U1'). reflexivity. }
  apply report_same; auto. intros q x. split.
  - intros (d & N & ->). apply H' in N as [N Hd]. destruct (holds_some (taken sel1) q) as [d' Hd']. exists d'. split.
    + apply H. split; [|exact Hd']. destruct N as [N|N]; [auto|right]. now apply (sums_shown _ _ _ _ S1).
    + eapply Same; eassumption.
  - intros (d & N & ->). apply H in N as [N Hd]. destruct (holds_some (taken sel1') q) as [d' Hd']. exists d'. split.
    + apply H'. split; [|exact Hd']. destruct N as [N|N]; [auto|right]. now apply (sums_shown _ _ _ _ S1).
    + symmetry. eapply Same; eassumption.
Qed.

(** The same in one entry of five postings, in which what goes to [x] and [z] is
    written in several parts and in another order. *)
Definition other_text : str :=
  lit "2021-03-05 C" ++ [10] ++ lit "    z    $-5" ++ [10] ++ lit "    x    $1.25" ++ [10] ++ lit "    x:y    $1" ++ [10] ++ lit "    x    $2.25" ++ [10] ++
  lit "    z    $0.50" ++ [10].
Example C119_example : let E := env1 [(lit "j", text_same)] in let E' := env1 [(lit "j", other_text)] in let O := opts0 "j" in
  sane_clock E /\ orders E /\ sane_clock E' /\ orders E' /\ filters_for E (o_args O) [] /\ CmdSpec.readable E O /\ CmdSpec.readable E' O /\
  (exists sel sel', picks E O [] (txns 0 (fst (stream E O))) sel /\ picks E' O [] (txns 0 (fst (stream E' O))) sel' /\
     Forall priced (taken sel) /\ Forall priced (taken sel') /\ uniform (lit "$") (taken sel) /\ uniform (lit "$") (taken sel') /\
     same_sums (taken sel) (taken sel') /\ length (taken sel) = 4%nat /\ length (taken sel') = 5%nat) /\
  length (r_out (balance_cmd E O)) = 3%nat.
Proof.
  cbn zeta. split; [apply env1_clock|]. split; [apply env1_orders|]. split; [apply env1_clock|]. split; [apply env1_orders|].
  split; [split; constructor|]. split; [apply readable_noflags; vm_compute; reflexivity|]. split; [apply readable_noflags; vm_compute; reflexivity|].
  split; [|vm_compute; reflexivity].
  set (u1 := txns 0 (fst (stream (env1 [(lit "j", text_same)]) (opts0 "j")))).
  set (u2 := txns 0 (fst (stream (env1 [(lit "j", other_text)]) (opts0 "j")))).
  vm_compute in u1, u2.
  exists (map (fun u => (u, t_postings (u_txn u))) u1), (map (fun u => (u, t_postings (u_txn u))) u2). subst u1 u2. cbn [map].
  split; [repeat (apply PickIt; [apply plain_within; [repeat split|vm_compute; discriminate]|reflexivity|reflexivity|reflexivity|]); apply PickNone|].
  split; [repeat (apply PickIt; [apply plain_within; [repeat split|vm_compute; discriminate]|reflexivity|reflexivity|reflexivity|]); apply PickNone|].
  split; [repeat constructor; discriminate|]. split; [repeat constructor; discriminate|].
  split; [repeat constructor|]. split; [repeat constructor|]. split; [|split; reflexivity].
  intro a. split; [|cbn; tauto].
  cbn [taken flat_map snd t_postings u_txn app]. rewrite !sum_at_cons. cbn [po_account]. unfold quantity. cbn [po_amount am_quantity].
  unfold zero64, sum_at. cbn [filter total]. 
  destruct (str_eqb [120] a), (str_eqb [122] a), (str_eqb [120; 58; 121] a); reflexivity.
Qed.
