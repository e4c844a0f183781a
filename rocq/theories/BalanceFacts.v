(** * The balance command *)
From Verif Require Import Base BaseFacts Utf8 Unicode GoTime Strconv Display Journal Lexer Parser ParserFacts
  Account Reporting Cmd Spec JournalFacts TreeSpec TreeFacts PruneFacts ReportSpec ReportFacts TextSpec CmdSpec StreamFacts CmdFacts ParseRel.

(** ** Paths of accounts below reserved names *)
Lemma reservedb_root : forall c, reservedb c = is_root_name c.
Proof. reflexivity. Qed.

Lemma loop_root : forall anc r r' x y name, is_root_name r = true -> is_root_name r' = true ->
  createPath_loop name (anc ++ r :: x) = createPath_loop name (anc ++ r' :: y).
Proof.
  induction anc as [|a anc IH]; intros r r' x y name H H'; cbn; [now rewrite H, H'|].
  destruct (is_root_name a); [reflexivity|]. now apply IH.
Qed.
Lemma loop_stop : forall anc x y name, existsb is_root_name anc = true ->
  createPath_loop name (anc ++ x) = createPath_loop name (anc ++ y).
Proof.
  induction anc as [|a anc IH]; intros x y name H; [discriminate|]. cbn in *.
  destruct (is_root_name a); [reflexivity|]. now apply IH.
Qed.

Lemma existsb_rev : forall A (f : A -> bool) l, existsb f (rev l) = existsb f l.
Proof.
  intros A f l. induction l as [|x l IH]; [reflexivity|]. cbn. rewrite existsb_app, IH. cbn. rewrite orb_false_r. apply orb_comm.
Qed.

Lemma visible_cons : forall k q, visible (k :: q) = if existsb reservedb (removelast (k :: q)) then visible q else k :: q.
Proof. reflexivity. Qed.
Lemma createPath_visible : forall q, q <> [] ->
  createPath (last q []) (rev (removelast q) ++ [RootID]) = join [58] (visible q).
Proof.
  induction q as [|k q IH]; intro N; [contradiction|]. rewrite visible_cons.
  match goal with |- context [if ?b then _ else _] => destruct b eqn:R end.
  - destruct q as [|k' q]; [discriminate|]. specialize (IH ltac:(discriminate)).  rewrite <- IH. unfold createPath.
    change (last (k :: k' :: q) []) with (last (k' :: q) []).
    change (removelast (k :: k' :: q)) with (k :: removelast (k' :: q)) in *. cbn [rev]. rewrite <- app_assoc. cbn [app].
    cbn [existsb] in R. apply orb_true_iff in R as [R|R].
    + apply loop_root; [exact R|reflexivity].
    + apply (loop_stop _ (k :: [RootID]) [RootID]). rewrite existsb_rev. exact R.
  - apply createPath_components; [discriminate|]. apply Forall_forall. intros c I.
    assert (X : reservedb c = false) by (destruct (reservedb c) eqn:E; [|reflexivity]; rewrite <- R; symmetry; apply existsb_exists; eauto).
    unfold reservedb in X. apply orb_false_iff in X as [X Y]. split; now apply str_eqb_neq.
Qed.

Lemma built_holds : forall ps root q d, built ps root -> data_at q root = Some d -> holds ps q d.
Proof.
  intros ps root q d B H. destruct (b_some _ _ B _ _ H) as (_ & Q & C & P & N & Pa). split; auto.
  rewrite Pa. destruct q as [|k q]; [reflexivity|]. apply createPath_visible. discriminate.
Qed.

Lemma holds_fun : forall ps q d d', holds ps q d -> holds ps q d' -> d = d'.
Proof.
  intros ps q [n p [c x] po] [n' p' [c' x'] po'] [Q C P N Pa] [Q' C' P' N' Pa']. cbn in *. congruence.
Qed.

Lemma built_node : forall ps root q d, built ps root ->
  (node root q d <-> (q = [] \/ exists p, In p ps /\ prefix q (components p)) /\ holds ps q d).
Proof.
  intros ps root q d B. rewrite node_data_at by apply (b_distinct _ _ B). split.
  - intro H. split; [|eapply built_holds; eauto]. destruct (b_some _ _ B _ _ H) as ([->|(p & I & L)] & _); [auto|].
    right. exists p. split; [exact I|]. now apply prefixb_iff.
  - intros [K H]. destruct (data_at q root) as [d'|] eqn:D.
    + f_equal. eapply holds_fun; [eapply built_holds; eauto|exact H].
    + destruct (b_none _ _ B _ D) as [N F]. destruct K as [K|(p & I & L)]; [contradiction|].
      assert (X : In p (filter (below q) ps)) by (apply filter_In; split; [exact I|now apply prefixb_iff]).
      rewrite F in X. destruct X.
Qed.

(** ** What is printed on the way *)
Lemma walk_out : forall f path a a' out, walkAncestors path f a = Some (a', out) ->
  out = flat_map (fun q => match data_at q a with Some d => snd (f d) | None => [] end) (up path).
Proof.
  intro f. induction path as [|k path IH]; intros [d ch] a' out H.
  - cbn in H. destruct (f d) as [d' o] eqn:F. injection H as _ <-. cbn. rewrite F. cbn. now rewrite app_nil_r.
  - cbn [walkAncestors] in H. destruct (get k ch) as [c|] eqn:G; [|discriminate].
    destruct (walkAncestors path f c) as [[c' o]|] eqn:W; [|discriminate]. destruct (f d) as [d' o'] eqn:F. injection H as _ <-.
    cbn [up]. rewrite flat_map_app. cbn [flat_map]. rewrite data_at_nil, F. cbn [snd]. rewrite app_nil_r. f_equal.
    rewrite (IH _ _ _ W). clear - G. induction (up path) as [|q l IHl]; [reflexivity|]. cbn [map flat_map].
    rewrite data_at_cons, G. f_equal. exact IHl.
Qed.

Lemma up_prefix : forall path q, In q (up path) <-> prefix q path.
Proof.
  induction path as [|k path IH]; intro q; cbn [up].
  - split; [intros [<-|[]]; exists []; reflexivity|]. intros [r E]. destruct q; [now left|discriminate].
  - rewrite in_app_iff, in_map_iff. split.
    + intros [(x & <- & I)|[<-|[]]]; [|exists (k :: path); reflexivity]. apply IH in I as [r ->]. exists r. reflexivity.
    + intros [r E]. destruct q as [|k' q]; [right; now left|]. injection E as <- E. left. exists q. split; [reflexivity|].
      apply IH. exists r. exact E.
Qed.

Lemma wire_out : forall ps root p am r out, built ps root -> po_amount p = Some am -> wireUpPosting root p = Some (r, out) ->
  out = flat_map (complaint ps p) (up (components p)).
Proof.
  intros ps root p am r out B A W. unfold wireUpPosting in W. change (split colon (po_account p)) with (components p) in W.
  destruct (findOrCreateAccount root (components p)) as [r1|] eqn:E; [|discriminate]. rewrite A in W.
  pose proof (b_distinct _ _ B) as D. pose proof (b_named _ _ B) as N.
  destruct (foc_wf _ _ _ D N E) as (D1 & N1 & A1). pose proof (foc_found _ _ _ D N E) as F1.
  pose proof (foc_data _ _ _ D N E) as Q1.
  destruct (update_data_at (post p) (add_posting_to p) (components p) r1) as (D2 & N2 & A2 & Q2); auto.
  apply walk_out in W. rewrite W.
  assert (X : forall l, (forall q, In q l -> prefix q (components p)) ->
    flat_map (fun q => match data_at q (update_at (components p) (add_posting_to p) r1) with
                       | Some d => snd (wire_add am d) | None => [] end) l = flat_map (complaint ps p) l).
  { induction l as [|q l IH]; intro H; [reflexivity|]. cbn [flat_map]. f_equal; [|apply IH; intros; apply H; now right].
    assert (P : prefixb q (components p) = true) by (apply prefixb_iff, H; now left).
    rewrite Q2, Q1. unfold complaint. rewrite filter_app. cbn [filter].
    replace (below q p) with true by (symmetry; exact P). rewrite first_commodity_snoc.
    assert (K : forall d, am_commodity (a_amount d) = first_commodity (filter (below q) ps) ->
      snd (wire_add am d) =
      (if str_eqb (match first_commodity (filter (below q) ps) with [] => commodity_of p | z :: l0 => z :: l0 end) (commodity_of p) then []
       else [lit "unhandled addition of unmatched commodities: '" ++
             (match first_commodity (filter (below q) ps) with [] => commodity_of p | z :: l0 => z :: l0 end) ++
             lit "' and '" ++ commodity_of p ++ lit "'" ++ [10]])).
    { intros d Hd. unfold wire_add. rewrite Hd. unfold commodity_of. rewrite A.
      destruct (first_commodity (filter (below q) ps)); unfold amount_add, mismatch; cbn [am_commodity snd]; reflexivity. }
    destruct (data_at q root) as [d|] eqn:Dq.
    - destruct (b_some _ _ B _ _ Dq) as (_ & _ & C & _).
      destruct (list_str_dec q (components p)); cbn [option_map]; apply K; exact C.
    - destruct (b_none _ _ B _ Dq) as [_ F0].
      rewrite P. destruct (list_str_dec q (components p)); cbn [option_map]; apply K; rewrite F0; reflexivity. }
  apply X. intros q H. now apply up_prefix.
Qed.


Lemma add_all : forall ps ps0 j, built ps0 (j_root j) ->
  match j_addPostings j ps with
  | (j', out, SOk) => Forall priced ps /\ built (ps0 ++ ps) (j_root j') /\ out = complaints ps0 ps
  | (_, _, r) => r = SPanic /\ ~ Forall priced ps
  end.
Proof.
  induction ps as [|p ps IH]; intros ps0 j B; cbn [j_addPostings].
  - split; [constructor|]. split; [now rewrite app_nil_r|reflexivity].
  - unfold j_addPosting. destruct (wireUpPosting (j_root j) p) as [[r o]|] eqn:W.
    + destruct (po_amount p) as [am|] eqn:A.
      2: { unfold wireUpPosting in W. rewrite A in W. destruct (findOrCreateAccount _ _); discriminate. }
      specialize (IH (ps0 ++ [p]) (Jrn (j_txns j) (j_ptxns j) (j_paths j) r)).
      cbn [j_root] in IH. specialize (IH (built_add _ _ _ _ _ B W)).
      destruct (j_addPostings _ ps) as [[j2 o2] st]. rewrite <- app_assoc in IH. cbn [app] in IH.
      pose proof (wire_out _ _ _ _ _ _ B A W) as Ho.
      destruct st; [|destruct IH as [X IH]; try discriminate X; (split; [reflexivity|]; intro F; inversion F; auto)..].
      destruct IH as (F & B' & Q). split; [constructor; [unfold priced; congruence|exact F]|]. split; [exact B'|].
      cbn [complaints]. congruence.
    + split; [reflexivity|]. intro F. inversion F as [|? ? Ap _]; subst.
      apply wire_none in W as [W|W]; [contradiction|]. apply W. split; [apply (b_distinct _ _ B)|apply (b_named _ _ B)].
Qed.

(** ** The run *)
Lemma balance_ph_root : forall s pt p s' r, balance_ph s pt p = (s', r) ->
  r = SOk /\ j_root (h_data s') = j_root (h_data s) /\ h_n s' = h_n s /\
  (is_pnone (pe_interval (pt_period pt)) = true -> h_out s' = h_out s).
Proof.
  intros s pt p s' r H. unfold balance_ph, j_addPeriodicTransaction, pt_run in H.
  destruct (is_pnone _) eqn:N; cbn in H; injection H as <- <-; cbn; repeat split; auto; [now rewrite app_nil_r|discriminate].
Qed.

Definition month_event (ev : event) : Prop :=
  match ev with ETxn _ _ => True | EPer pt _ => is_pnone (pe_interval (pt_period pt)) = true end.
Lemma stream_months : forall E O, Forall month_event (fst (stream E O)).
Proof.
  intros E O. pose proof (stream_dated E O) as D. eapply Forall_impl; [|exact D]. intros [t p|pt p] H; [exact I|].
  cbn in *. destruct H as (_ & _ & H). unfold month_event. now rewrite H.
Qed.

Lemma complaints_app : forall a b ps, complaints ps (a ++ b) = complaints ps a ++ complaints (ps ++ a) b.
Proof.
  induction a as [|p a IH]; intros b ps; cbn [complaints app]; [now rewrite app_nil_r|].
  rewrite IH, <- !app_assoc. reflexivity.
Qed.

Section Run.
Variable E : env.
Variable O : opts.
Variable fs : list filter_.
Hypothesis C : sane_clock E.
Hypothesis Or : orders E.
Notation picks := (picks E O fs).

Lemma priced_hits : forall u us more, picks (u :: us) more -> within E O (u_n u) (t_date (u_txn u)) -> hit E fs (u_txn u) = true ->
  forall ps, Permutation ps (hits E fs (u_txn u)) -> Forall priced (taken more) -> Forall priced ps.
Proof.
  intros u us more Pm W Ht ps P Fp. inversion Pm as [|? ? ? No _|? ? ? ps' W' Ht' P' Wh' Pm']; subst.
  - destruct No as [No|No]; [contradiction|congruence].
  - unfold taken in Fp. cbn [flat_map snd] in Fp. apply Forall_app in Fp as [Fp _].
    eapply Permutation_Forall; [symmetry; exact P|]. eapply Permutation_Forall; [exact P'|exact Fp].
Qed.

Lemma balance_deliver : forall evs s ps0, Forall month_event evs -> built ps0 (j_root (h_data s)) ->
  let '(s', r) := deliver_all (Some (checked E O fs balance_handler)) (Some balance_ph) s evs in
  (r = SOk /\ flags_ok E O (txns (h_n s) evs) /\ exists more, picks (txns (h_n s) evs) more /\ Forall priced (taken more) /\
     built (ps0 ++ taken more) (j_root (h_data s')) /\ h_out s' = h_out s ++ complaints ps0 (taken more)) \/
  (r <> SOk /\ ~ (flags_ok E O (txns (h_n s) evs) /\ exists more, picks (txns (h_n s) evs) more /\ Forall priced (taken more))).
Proof.
  induction evs as [|[t p|pt p] evs IH]; intros s ps0 M B; cbn [deliver_all].
  - left. split; [reflexivity|]. split; [constructor|]. exists []. split; [constructor|]. split; [constructor|]. cbn. now rewrite !app_nil_r.
  - inversion M as [|? ? _ M']; subst. cbn [deliver txns].
    destruct (checked_cases E O C Or _ fs balance_handler s t p) as [(G & W & Q)|[(G & W & Ht & ps & P & Wh & Q)|(G & e & Q)]]; rewrite Q.
    + specialize (IH (HS (Datatypes.S (h_n s)) (h_out s) (h_data s)) ps0 M' B). destruct (deliver_all _ _ _ evs) as [s' r].
      cbn [h_n h_out] in IH. destruct IH as [(-> & F & more & Pm & K)|(N & F)].
      * left. split; [reflexivity|]. split; [constructor; auto|]. exists more. split; [apply PickNot; auto|exact K].
      * right. split; [exact N|]. intros (F1 & more & Pm & Fp). apply F. split; [now inversion F1|].
        inversion Pm; subst; [eauto|]. destruct W as [W|W]; [contradiction|]. cbn in *. congruence.
    + unfold balance_handler. cbn [h_data h_n h_out].
      pose proof (add_all ps ps0 (j_addTransaction (h_data s) t p) B) as K.
      destruct (j_addPostings (j_addTransaction (h_data s) t p) ps) as [[j1 o1] r1]. destruct r1.
      2-5: destruct K as [K1 K2]; first [discriminate K1|idtac].
      2: right; (split; [discriminate|]); intros (F1 & more & Pm & Fp); apply K2; apply (priced_hits _ _ _ Pm W Ht ps P Fp).
      destruct K as (Fp & B1 & Q1). specialize (IH (HS (Datatypes.S (h_n s)) (h_out s ++ o1) j1) (ps0 ++ ps) M' B1).
      destruct (deliver_all _ _ _ evs) as [s' r]. cbn [h_n h_out] in IH. destruct IH as [(-> & F & more & Pm & Fm & B2 & Q2)|(N & F)].
      * left. split; [reflexivity|]. split; [constructor; auto|]. exists ((Used (h_n s) t p, ps) :: more).
        split; [apply PickIt; auto|]. unfold taken in *. cbn [flat_map snd]. split; [apply Forall_app; auto|].
        rewrite app_assoc. split; [exact B2|]. rewrite complaints_app, Q2, Q1, <- app_assoc. reflexivity.
      * right. split; [exact N|]. intros (F1 & more & Pm & Fm). apply F. split; [now inversion F1|].
        inversion Pm as [|? ? ? No _|? ? ? ps' W' Ht' P' Wh' Pm']; subst; [destruct No as [No|No]; cbn in No; [contradiction|congruence]|].
        exists sel. split; [exact Pm'|]. unfold taken in *. cbn [flat_map] in Fm. now apply Forall_app in Fm as [_ Fm].
    + right. split; [discriminate|]. intros [F _]. inversion F; subst. contradiction.
  - inversion M as [|? ? Mp M']; subst. cbn [deliver txns]. destruct (balance_ph s pt p) as [s1 r1] eqn:Ph.
    apply balance_ph_root in Ph as (-> & Rt & Hn & Ho). specialize (Ho Mp). rewrite <- Rt in B.
    specialize (IH s1 ps0 M' B). rewrite Hn, Ho in IH. exact IH.
Qed.

Lemma balance_run_spec :
  match balance_run E O fs with
  | (s, SOk) => readable E O /\ exists sel, picks (txns 0 (fst (stream E O))) sel /\ Forall priced (taken sel) /\
      built (taken sel) (j_root (h_data s)) /\ h_out s = complaints [] (taken sel)
  | _ => ~ (readable E O /\ exists sel, picks (txns 0 (fst (stream E O))) sel /\ Forall priced (taken sel))
  end.
Proof.
  unfold balance_run. pose proof (balance_deliver (fst (stream E O)) (HS 0 [] newJournal) [] (stream_months E O) built_new) as K.
  pose proof (parse_cmd_fold E O _ (Some (checked E O fs balance_handler)) (Some balance_ph) (HS 0 [] newJournal)) as F.
  unfold readable. destruct (stream E O) as [evs st]. cbn [fst snd h_n h_out app] in *.
  destruct (deliver_all _ _ _ evs) as [s' r']. destruct (parse_cmd _ _ _ _ _) as [s r]. cbn [fst snd] in F. destruct F as [-> F].
  destruct K as [(-> & G & more & P & Fp & B & Q)|(N & No)].
  - subst r. destruct st; [|intros [[X _] _]; discriminate..]. split; [auto|]. eauto.
  - destruct r'; [contradiction| | | |]; (destruct r; [cbn in F; discriminate| | | |]); intros [[_ X] Y]; apply No; auto.
Qed.
End Run.
