(** * Facts about the commands *)
From Verif Require Import Base BaseFacts Utf8 Utf8Facts Unicode GoTime Strconv Display Journal Lexer Parser ParserFacts
  Account Reporting Budget Cmd Spec JournalFacts TextSpec DateFacts CmdSpec.

(** ** Reading *)
Section Read.
Variable E : env.
Variable O : opts.

Lemma parse_cmd_fold : forall D (th : option (D -> transaction -> str -> D * status)) ph s,
  let '(evs, r) := stream E O in
  let '(s', r') := deliver_all th ph s evs in
  fst (parse_cmd E O th ph s) = s' /\
  match r' with
  | SOk => snd (parse_cmd E O th ph s) = r
  | _ => strip_st (snd (parse_cmd E O th ph s)) = strip_st r'
  end.
Proof.
  intros D th ph s. unfold stream, parse_cmd, journal_path.
  set (path := match o_file O with [] => e_ledger_file E | f => Some f end).
  replace (match o_file O with [] => e_ledger_file E | z :: l => Some (z :: l) end) with path by (unfold path; destruct (o_file O); reflexivity).
  destruct path as [p|]; [|split; reflexivity].
  destruct (e_fs E p) as [f|]; [|split; reflexivity]. apply parse_fold.
Qed.

(** A run that ends well delivered everything. *)
Lemma parse_cmd_ok : forall D (th : option (D -> transaction -> str -> D * status)) ph s s',
  parse_cmd E O th ph s = (s', SOk) <->
  (snd (stream E O) = SOk /\ deliver_all th ph s (fst (stream E O)) = (s', SOk)).
Proof.
  intros D th ph s s'. pose proof (parse_cmd_fold D th ph s) as F. destruct (stream E O) as [evs r].
  destruct (deliver_all th ph s evs) as [s1 r1] eqn:Dl. destruct (parse_cmd E O th ph s) as [s2 r2]. cbn [fst snd] in *.
  destruct F as [-> F]. split.
  - intro H. inversion H; subst. destruct r1; cbn in F; try discriminate. auto.
  - intros [-> H]. rewrite Dl in H. inversion H; subst. now subst r2.
Qed.

(** ** Dates *)
Lemma flag_instant_spec : forall n flag, sane_clock E ->
  match flag_instant E O n flag with
  | POk i => (flag = [] \/ o_current O = true) /\ i = 0 \/
             (flag <> [] /\ o_current O = false /\ exists d, flag_means (e_year E n) flag d /\ i = e_local E d * second)
  | PErr e => ~ good_flag E O n flag
  | PPanic => False
  end.
Proof.
  intros n flag C. unfold flag_instant. destruct flag as [|b flag]; cbn [is_nil negb andb]; [left; auto|].
  destruct (o_current O) eqn:Cu; cbn [negb]; [left; auto|].
  destruct (parseSmartDate (e_year E n) (b :: flag)) as [d|e|] eqn:P.
  - right. split; [discriminate|]. split; [reflexivity|]. exists d. split; [|reflexivity]. apply smart_spec in P; [exact P|apply C].
  - intros [H|[H|[d H]]]; [discriminate|congruence|]. apply smart_spec in H; [congruence|apply C].
  - now apply smart_no_panic in P.
Qed.

Lemma flag_unique : forall n flag d d', sane_clock E -> flag_means (e_year E n) flag d -> flag_means (e_year E n) flag d' -> d = d'.
Proof. intros n flag d d' C H H'. apply smart_spec in H, H'; try apply C. congruence. Qed.

Lemma within_spec : forall n t, sane_clock E ->
  match withinDateRange E O n t with
  | POk true => good_flags E O n /\ within E O n (t_date t)
  | POk false => good_flags E O n /\ ~ within E O n (t_date t)
  | PErr _ => ~ good_flags E O n
  | PPanic => False
  end.
Proof.
  intros n t C. unfold withinDateRange.
  pose proof (flag_instant_spec (2 * n) (o_begin O) C) as B. destruct (flag_instant E O (2 * n) (o_begin O)) as [b|e|];
    [|unfold good_flags; tauto|exact B].
  pose proof (flag_instant_spec (2 * n + 1) (o_end O) C) as D. destruct (flag_instant E O (2 * n + 1) (o_end O)) as [e|e|];
    [|unfold good_flags; tauto|exact D].
  assert (G : good_flags E O n).
  { split; unfold good_flag.
    - destruct B as [[[B|B] _]|(_ & _ & d & B & _)]; eauto.
    - destruct D as [[[D|D] _]|(_ & _ & d & D & _)]; eauto. }
  unfold within, starts_before, ends_after. set (i := instant (t_date t)).
  assert (NS : ns = second) by reflexivity. rewrite NS. assert (Sp : 0 < second) by reflexivity.
  cbv zeta. destruct (o_current O) eqn:Cu.
  - match goal with |- if ?b then _ else _ => destruct b eqn:W end.
    + split; [exact G|]. apply andb_true_iff in W as [W1 W2]. split.
      * left. split; [auto|]. apply orb_true_iff in W1 as [W1|W1]; [apply Z.eqb_eq in W1|apply Z.ltb_lt in W1]; nia.
      * left. split; [reflexivity|]. apply orb_true_iff in W2 as [W2|W2]; [apply Z.eqb_eq in W2|apply Z.ltb_lt in W2]; auto.
    + split; [exact G|]. intros [[[_ W1]|(_ & X & _)] [[_ W2]|[[X' _]|[X' _]]]]; try discriminate.
      apply andb_false_iff in W as [W|W]; apply orb_false_iff in W as [V1 V2].
      * apply Z.eqb_neq in V1. apply Z.ltb_ge in V2. nia.
      * apply Z.eqb_neq in V1. apply Z.ltb_ge in V2. lia.
  - match goal with |- if ?b then _ else _ => destruct b eqn:W end.
    + split; [exact G|]. apply andb_true_iff in W as [W1 W2]. split.
      * destruct B as [[[B|B] Eb]|(Nb & _ & d & B & Eb)]; [| discriminate |].
        -- left. split; [auto|]. subst b. apply orb_true_iff in W1 as [W1|W1]; [apply Z.eqb_eq in W1|apply Z.ltb_lt in W1]; nia.
        -- right. split; [exact Nb|]. split; [reflexivity|]. exists d. split; [exact B|]. subst b.
           apply orb_true_iff in W1 as [W1|W1]; [apply Z.eqb_eq in W1|apply Z.ltb_lt in W1]; nia.
      * destruct D as [[[D|D] Ed]|(Nd & _ & d & D & Ed)]; [| discriminate |].
        -- right. left. auto.
        -- right. right. split; [reflexivity|]. split; [exact Nd|]. exists d. split; [exact D|]. subst e.
           apply orb_true_iff in W2 as [W2|W2]; [apply Z.eqb_eq in W2|apply Z.ltb_lt in W2]; nia.
    + split; [exact G|]. intros [S1 S2].
      apply andb_false_iff in W as [W|W]; apply orb_false_iff in W as [V1 V2]; apply Z.eqb_neq in V1; apply Z.ltb_ge in V2.
      * destruct S1 as [[[S1|S1] Z0]|(Nb & _ & d & S1 & Z0)]; [| discriminate |].
        -- destruct B as [[_ Eb]|(Nb & _)]; [nia|contradiction].
        -- destruct B as [[[B|B] _]|(_ & _ & d' & B & Eb)]; [contradiction|discriminate|].
           rewrite (flag_unique (2 * n) _ _ _ C S1 B) in *. nia.
      * destruct S2 as [[S2 _]|[[_ S2]|(_ & Nd & d & S2 & Z0)]]; [discriminate| |].
        -- destruct D as [[_ Ed]|(Nd & _)]; [lia|contradiction].
        -- destruct D as [[[D|D] _]|(_ & _ & d' & D & Ed)]; [contradiction|discriminate|].
           rewrite (flag_unique (2 * n + 1) _ _ _ C S2 D) in *. nia.
Qed.

(** ** Filters *)
Lemma pick_perm : forall A (l : list A) is is', Permutation is is' -> Permutation (pick l is) (pick l is').
Proof.
  intros A l is is' P. unfold pick. induction P; cbn; auto.
  - now apply Permutation_app_head.
  - rewrite !app_assoc. apply Permutation_app_tail. apply Permutation_app_comm.
  - etransitivity; eauto.
Qed.

Lemma pick_seq : forall A (h : A -> bool) (l pre : list A),
  pick (pre ++ l) (filter (fun i => match nth_error (pre ++ l) i with Some x => h x | None => false end)
                     (seq (length pre) (length l))) = filter h l.
Proof.
  intros A h. induction l as [|x l IH]; intros pre; [reflexivity|]. cbn [length seq filter].
  rewrite nth_error_app2, Nat.sub_diag by lia. cbn [nth_error].
  specialize (IH (pre ++ [x])). rewrite <- app_assoc in IH. cbn [app] in IH. rewrite app_length in IH. cbn [length] in IH.
  rewrite Nat.add_1_r in IH. destruct (h x) eqn:Hx; [|exact IH].
  cbn [pick flat_map]. rewrite nth_error_app2, Nat.sub_diag by lia. cbn [nth_error app]. f_equal. exact IH.
Qed.

Lemma pick_filter : forall A (h : A -> bool) (l : list A) is, NoDup is ->
  (forall i, In i is <-> exists x, nth_error l i = Some x /\ h x = true) -> Permutation (pick l is) (filter h l).
Proof.
  intros A h l is N H. rewrite <- (pick_seq A h l []). cbn [app length]. apply pick_perm. apply NoDup_Permutation; auto.
  - apply NoDup_filter. apply seq_NoDup.
  - intro i. rewrite H, filter_In, in_seq. split.
    + intros (x & Hx & B). rewrite Hx. split; [|exact B]. assert (i < length l)%nat by (apply nth_error_Some; congruence). lia.
    + intros [_ B]. destruct (nth_error l i) as [x|]; [|discriminate]. eauto.
Qed.

(** Indices of the postings a filter matches. *)
Definition f_posting (f : filter_) (p : posting) : bool := posting_matches (e_re_match E) f p.

Lemma how_postings : forall f t i, In i (snd (matchesTransactionHow (e_re_match E) f t)) <->
  exists p, nth_error (t_postings t) i = Some p /\ f_posting f p = true.
Proof.
  intros f t i. cbn [matchesTransactionHow snd]. rewrite in_map_iff.
  assert (C : forall (l : list posting) k j p, In (j, p) (combine (seq k (length l)) l) <-> (k <= j)%nat /\ nth_error l (j - k) = Some p).
  { induction l as [|x l IH]; intros k j p; cbn [length seq combine].
    - split; [intros []|]. intros [_ X]. destruct (j - k)%nat; discriminate.
    - cbn [In]. rewrite IH. split.
      + intros [X|[L X]]; [inversion X; subst; rewrite Nat.sub_diag; auto|]. split; [lia|].
        replace (j - k)%nat with (Datatypes.S (j - Datatypes.S k)) by lia. exact X.
      + intros [L X]. destruct (Nat.eq_dec k j) as [->|Ne]; [left; rewrite Nat.sub_diag in X; inversion X; reflexivity|].
        right. split; [lia|]. replace (j - k)%nat with (Datatypes.S (j - Datatypes.S k)) in X by lia. exact X. }
  split.
  - intros ([j p] & Ej & I). cbn in Ej. subst j. apply filter_In in I as [I M]. apply C in I as [_ I]. rewrite Nat.sub_0_r in I. eauto.
  - intros (p & I & M). exists (i, p). split; [reflexivity|]. apply filter_In. split; [|exact M].
    apply C. split; [lia|]. now rewrite Nat.sub_0_r.
Qed.

Lemma fold_orb' : forall A (f : A -> bool) l b, fold_left (fun m r => m || f r) l b = b || existsb f l.
Proof.
  induction l as [|x l IH]; intro b; cbn; [now rewrite orb_false_r|]. rewrite IH. now rewrite orb_assoc.
Qed.

Lemma how_whole : forall fs f t, whole_hit E (f :: fs) t =
  (fst (fst (matchesTransactionHow (e_re_match E) f t)) || snd (fst (matchesTransactionHow (e_re_match E) f t)))
  || whole_hit E fs t.
Proof.
  intros fs f t. unfold whole_hit. cbn [existsb matchesTransactionHow fst snd]. f_equal.
  destruct (f_type f); cbn [orb]; [reflexivity|now rewrite orb_false_r|]. rewrite fold_orb'. reflexivity.
Qed.

Lemma how_nodup : forall f t, NoDup (snd (matchesTransactionHow (e_re_match E) f t)).
Proof.
  intros f t. cbn [matchesTransactionHow snd].
  assert (X : forall (l : list posting) k, NoDup (map fst (combine (seq k (length l)) l)) /\
             map fst (combine (seq k (length l)) l) = seq k (length l)).
  { intros l k. assert (Q : map fst (combine (seq k (length l)) l) = seq k (length l)).
    { revert k. induction l as [|x l IH]; intro k; [reflexivity|]. cbn. now rewrite IH. }
    rewrite Q. split; [apply seq_NoDup|reflexivity]. }
  destruct (X (t_postings t) 0%nat) as [N _]. revert N. generalize (combine (seq 0 (length (t_postings t))) (t_postings t)).
  induction l as [|[i p] l IH]; intro N; [constructor|]. cbn [map filter snd fst] in *. inversion N; subst.
  destruct (posting_matches (e_re_match E) f p); [|auto]. cbn. constructor; [|auto].
  intro I. apply H1. apply in_map_iff in I as (z & <- & I). apply filter_In in I as [I _]. now apply in_map.
Qed.

Lemma match_filters_spec : forall fs t acc, NoDup acc ->
  match match_filters E fs t acc with
  | None => whole_hit E fs t = true
  | Some is => whole_hit E fs t = false /\ NoDup is /\
      forall i, In i is <-> In i acc \/ exists p, nth_error (t_postings t) i = Some p /\ posting_hit E fs p = true
  end.
Proof.
  induction fs as [|f fs IH]; intros t acc N; cbn [match_filters].
  - split; [reflexivity|]. split; [exact N|]. intro i. split; [auto|]. intros [I|(p & _ & X)]; [exact I|discriminate].
  - pose proof (how_whole fs f t) as W. pose proof (how_postings f t) as P. pose proof (how_nodup f t) as Nm.
    destruct (matchesTransactionHow (e_re_match E) f t) as [[pay note] mp]. cbn [fst snd] in *.
    rewrite W. destruct (pay || note); [reflexivity|]. cbn [orb].
    set (acc' := acc ++ filter (fun i => negb (existsb (Nat.eqb i) acc)) mp).
    assert (Hin : forall i, existsb (Nat.eqb i) acc = true <-> In i acc).
    { intro i. rewrite existsb_exists. split; [intros (x & I & X); apply Nat.eqb_eq in X; now subst|intro I; exists i; split; [exact I|apply Nat.eqb_refl]]. }
    assert (N' : NoDup acc').
    { unfold acc'. clear - N Nm Hin. induction acc as [|x acc IHa]; [cbn; now apply NoDup_filter|].
      assert (NoDup (filter (fun i => negb (existsb (Nat.eqb i) (x :: acc))) mp)) as F by (now apply NoDup_filter).
      revert F N. set (l := filter _ mp). intros F N.
      assert (D : forall i, In i l -> ~ In i (x :: acc)).
      { intros i I. unfold l in I. apply filter_In in I as [_ I]. apply negb_true_iff in I. intro J. apply Hin in J. congruence. }
      clear - F N D. revert N D. generalize (x :: acc). induction l0 as [|y l0 IH]; intros N D; [exact F|]. cbn. inversion N; subst.
      constructor; [|apply IH; auto; intros i I J; apply (D i I); now right].
      intro I. apply in_app_iff in I as [I|I]; [contradiction|]. apply (D y I). now left. }
    assert (A' : forall i, In i acc' <-> In i acc \/ In i mp).
    { intro i. unfold acc'. rewrite in_app_iff, filter_In. split; [tauto|]. intros [I|I]; [auto|].
      destruct (existsb (Nat.eqb i) acc) eqn:X; [left; now apply Hin|right; auto]. }
    specialize (IH t acc' N'). destruct (match_filters E fs t acc') as [is|]; [|exact IH].
    destruct IH as (W' & N2 & I2). split; [exact W'|]. split; [exact N2|]. intro i. rewrite I2, A', P. split.
    + intros [[I|(p & I & M)]|(p & I & M)]; [auto| |].
      * right. exists p. split; [exact I|]. unfold posting_hit. cbn [existsb]. apply orb_true_iff. left.
        unfold f_posting, posting_matches in M. destruct (f_type f); exact M.
      * right. exists p. split; [exact I|]. unfold posting_hit in *. cbn [existsb]. apply orb_true_iff. right. exact M.
    + intros [I|(p & I & M)]; [auto|]. unfold posting_hit in M. cbn [existsb] in M. apply orb_true_iff in M as [M|M].
      * left. right. exists p. split; [exact I|]. unfold f_posting, posting_matches. destruct (f_type f); exact M.
      * right. exists p. split; [exact I|exact M].
Qed.

Definition orders_n : Prop := forall n A (l : list A), Permutation (e_order E n A l) l.

Lemma filter_nil : forall A (h : A -> bool) l, filter h l = [] <-> existsb h l = false.
Proof.
  intros A h l. induction l as [|x l IH]; cbn; [tauto|]. destruct (h x); cbn; [split; discriminate|exact IH].
Qed.

Lemma check_spec : forall fs n t, sane_clock E -> orders_n ->
  match checkAgainstFilters E O fs n t with
  | POk (m, ps) =>
      good_flags E O n /\
      ((within E O n (t_date t) /\ Permutation ps (hits E fs t) /\ (m || negb (is_nil ps)) = hit E fs t /\
        ((fs = [] \/ whole_hit E fs t = true) -> ps = t_postings t))
       \/ (~ within E O n (t_date t) /\ m = false /\ ps = []))
  | PErr _ => ~ good_flags E O n
  | PPanic => False
  end.
Proof.
  intros fs n t C Or. unfold checkAgainstFilters. pose proof (within_spec n t C) as W.
  destruct (withinDateRange E O n t) as [[|]|e|]; [| |exact W|exact W]; destruct W as [G W].
  - destruct fs as [|f fs]; [split; [exact G|]; left; cbn; auto|].
    pose proof (match_filters_spec (f :: fs) t [] (NoDup_nil _)) as M.
    destruct (match_filters E (f :: fs) t []) as [is|].
    + destruct M as (Wh & N & I). split; [exact G|]. left. split; [exact W|].
      assert (P : Permutation (pick (t_postings t) (e_order E n nat is)) (filter (posting_hit E (f :: fs)) (t_postings t))).
      { etransitivity; [apply pick_perm; apply Or|]. apply pick_filter; [exact N|]. intro i. rewrite I. cbn. tauto. }
      split; [unfold hits; rewrite Wh; exact P|]. split.
      * unfold hit. rewrite Wh. cbn [orb]. destruct (existsb (posting_hit E (f :: fs)) (t_postings t)) eqn:X.
        -- destruct (pick _ _) as [|x l]; [|reflexivity]. apply Permutation_nil in P. apply filter_nil in P. congruence.
        -- apply filter_nil in X. rewrite X in P. symmetry in P. apply Permutation_nil in P. rewrite P. reflexivity.
      * rewrite Wh. intros [?|?]; discriminate.
    + split; [exact G|]. left. split; [exact W|]. unfold hits, hit. rewrite M. cbn. auto.
  - split; [exact G|]. right. auto.
Qed.
End Read.

(** ** Runs *)
Section Runs.
Variable E : env.
Variable O : opts.
Hypothesis C : sane_clock E.
Hypothesis Or : orders E.

Lemma checked_cases : forall D fs k (s : hstate D) t path,
  let s1 := HS (Datatypes.S (h_n s)) (h_out s) (h_data s) in
  (good_flags E O (h_n s) /\ (~ within E O (h_n s) (t_date t) \/ hit E fs t = false) /\ checked E O fs k s t path = (s1, SOk)) \/
  (good_flags E O (h_n s) /\ within E O (h_n s) (t_date t) /\ hit E fs t = true /\
   exists ps, Permutation ps (hits E fs t) /\ (fs = [] \/ whole_hit E fs t = true -> ps = t_postings t) /\
     checked E O fs k s t path = k s1 (h_n s) t ps path) \/
  (~ good_flags E O (h_n s) /\ exists e, checked E O fs k s t path = (s1, SErr e)).
Proof.
  intros D fs k s t path s1. unfold checked. pose proof (check_spec E O fs (h_n s) t C (proj1 Or)) as K.
  destruct (checkAgainstFilters E O fs (h_n s) t) as [[m ps]|e|]; [|right; right; split; [exact K|eauto]|contradiction].
  destruct K as [G [(W & P & H & Wh)|(W & -> & ->)]].
  - destruct (hit E fs t) eqn:Ht.
    + right. left. split; [exact G|]. split; [exact W|]. split; [reflexivity|]. exists ps. split; [exact P|]. split; [exact Wh|].
      destruct m, ps; cbn in *; try discriminate; reflexivity.
    + left. split; [exact G|]. split; [right; reflexivity|]. destruct m, ps; cbn in *; try discriminate; reflexivity.
  - left. split; [exact G|]. split; [left; exact W|]. reflexivity.
Qed.

Definition flags_ok (us : list used) : Prop := Forall (fun u => good_flags E O (u_n u)) us.

Lemma checked_run : forall D fs k ph (I : list (used * list posting) -> hstate D -> Prop),
  (forall sel s, I sel s -> I sel (HS (Datatypes.S (h_n s)) (h_out s) (h_data s))) ->
  (forall sel s u ps s', I sel s -> h_n s = Datatypes.S (u_n u) -> within E O (u_n u) (t_date (u_txn u)) -> hit E fs (u_txn u) = true ->
     Permutation ps (hits E fs (u_txn u)) ->
     k s (u_n u) (u_txn u) ps (u_path u) = (s', SOk) -> I (sel ++ [(u, ps)]) s' /\ h_n s' = h_n s) ->
  (forall sel s pt p s', I sel s -> deliver None ph s (EPer pt p) = (s', SOk) -> I sel s' /\ h_n s' = h_n s) ->
  forall evs sel s s', I sel s -> deliver_all (Some (checked E O fs k)) ph s evs = (s', SOk) ->
    flags_ok (txns (h_n s) evs) /\ exists more, picks E O fs (txns (h_n s) evs) more /\ I (sel ++ more) s'.
Proof.
  intros D fs k ph I I1 I2 I3. induction evs as [|[t p|pt p] evs IH]; intros sel s s' H R; cbn [deliver_all] in R.
  - inversion R; subst. split; [constructor|]. exists []. split; [constructor|]. now rewrite app_nil_r.
  - cbn [deliver] in R. cbn [txns].
    destruct (checked_cases D fs k s t p) as [(G & W & Q)|[(G & W & Ht & ps & P & Wh & Q)|(G & e & Q)]]; rewrite Q in R.
    + destruct (IH _ _ _ (I1 _ _ H) R) as (F & more & Pm & Im). cbn [h_n] in *. split; [constructor; auto|].
      exists more. split; [apply PickNot; auto|exact Im].
    + destruct (k _ (h_n s) t ps p) as [s1 [| | | |]] eqn:Ek; try discriminate.
      destruct (I2 sel _ (Used (h_n s) t p) ps s1 (I1 _ _ H) eq_refl W Ht P Ek) as [Is Hn].
      destruct (IH _ _ _ Is R) as (F & more & Pm & Im). rewrite Hn in *. cbn [h_n] in *. split; [constructor; auto|].
      exists ((Used (h_n s) t p, ps) :: more). split; [apply PickIt; auto|]. now rewrite <- app_assoc in Im.
    + discriminate.
  - destruct (deliver (Some (checked E O fs k)) ph s (EPer pt p)) as [s1 [| | | |]] eqn:Ed; try discriminate.
    destruct (I3 sel s pt p s1 H) as [Is Hn]; [exact Ed|]. destruct (IH _ _ _ Is R) as (F & more & Pm & Im).
    rewrite Hn in *. cbn [txns]. split; [exact F|]. eauto.
Qed.

(** Runs of a handler that does not fail on what it is given do not fail. *)
Lemma checked_total : forall D fs k ph (P : hstate D -> Prop) (Q : event -> Prop),
  (forall s, P s -> P (HS (Datatypes.S (h_n s)) (h_out s) (h_data s))) ->
  (forall s n t ps p, P s -> Q (ETxn t p) -> Permutation ps (hits E fs t) ->
     exists s', k s n t ps p = (s', SOk) /\ h_n s' = h_n s /\ P s') ->
  (forall s pt p, P s -> Q (EPer pt p) -> exists s', deliver None ph s (EPer pt p) = (s', SOk) /\ h_n s' = h_n s /\ P s') ->
  forall evs s, P s -> Forall Q evs -> flags_ok (txns (h_n s) evs) ->
    exists s', deliver_all (Some (checked E O fs k)) ph s evs = (s', SOk) /\ P s'.
Proof.
  intros D fs k ph P Q P1 P2 P3. induction evs as [|[t p|pt p] evs IH]; intros s H FQ F; cbn [deliver_all].
  - eauto.
  - cbn [deliver]. cbn [txns] in F. inversion F as [|? ? G F']; subst. inversion FQ as [|? ? Qe FQ']; subst. cbn in G.
    destruct (checked_cases D fs k s t p) as [(_ & W & R)|[(_ & W & Ht & ps & Pp & Wh & R)|(X & _)]]; [| |contradiction]; rewrite R.
    + apply IH; [auto|exact FQ'|exact F'].
    + destruct (P2 _ (h_n s) t ps p (P1 _ H) Qe Pp) as (s1 & -> & Hn & Hs). apply IH; [exact Hs|exact FQ'|]. now rewrite Hn.
  - inversion FQ as [|? ? Qe FQ']; subst. destruct (P3 s pt p H Qe) as (s1 & R & Hn & Hs). cbn [deliver] in *. rewrite R.
    apply IH; [exact Hs|exact FQ'|]. now rewrite Hn.
Qed.

(** The same when only what is picked is known to be acceptable. *)
Lemma picked_total : forall D fs k ph (P : hstate D -> Prop) (Q : list posting -> Prop),
  (forall ps ps', Permutation ps ps' -> Q ps -> Q ps') ->
  (forall s, P s -> P (HS (Datatypes.S (h_n s)) (h_out s) (h_data s))) ->
  (forall s n t ps p, P s -> Q ps -> exists s', k s n t ps p = (s', SOk) /\ h_n s' = h_n s /\ P s') ->
  (forall s pt p, P s -> exists s', deliver None ph s (EPer pt p) = (s', SOk) /\ h_n s' = h_n s /\ P s') ->
  forall evs s sel, P s -> flags_ok (txns (h_n s) evs) -> picks E O fs (txns (h_n s) evs) sel -> Forall (fun x => Q (snd x)) sel ->
    exists s', deliver_all (Some (checked E O fs k)) ph s evs = (s', SOk) /\ P s'.
Proof.
  intros D fs k ph P Q Pm P1 P2 P3. induction evs as [|[t p|pt p] evs IH]; intros s sel H F Pk FQ; cbn [deliver_all].
  - eauto.
  - cbn [deliver]. cbn [txns] in F, Pk. inversion F as [|? ? G F']; subst. cbn in G.
    destruct (checked_cases D fs k s t p) as [(_ & W & R)|[(_ & W & Ht & ps & Pp & Wh & R)|(X & _)]]; [| |contradiction]; rewrite R.
    + inversion Pk as [|? ? ? No Pk'|? ? ? ps W' Hi Pm' Wh Pk']; subst; cbn [u_n u_txn] in *.
      * apply (IH (HS (Datatypes.S (h_n s)) (h_out s) (h_data s)) sel); auto.
      * exfalso. destruct W as [W|W]; [contradiction|congruence].
    + inversion Pk as [|? ? ? No Pk'|? ? ? ps' W' Hi Pm' Wh' Pk']; subst; cbn [u_n u_txn] in *.
      * exfalso. destruct No as [No|No]; [contradiction|congruence].
      * inversion FQ as [|? ? Q1 FQ']; subst. cbn [snd] in Q1.
        destruct (P2 _ (h_n s) t ps p (P1 _ H) (Pm _ _ (Permutation_trans Pm' (Permutation_sym Pp)) Q1)) as (s1 & -> & Hn & Hs).
        cbn [h_n] in Hn. apply (IH s1 sel0); auto; rewrite Hn; assumption.
  - destruct (P3 s pt p H) as (s1 & R & Hn & Hs). cbn [deliver] in *. rewrite R. cbn [txns] in F, Pk.
    apply (IH s1 sel); auto; rewrite Hn; assumption.
Qed.

Lemma date_checked_cases : forall D k (s : hstate D) t path,
  let s1 := HS (Datatypes.S (h_n s)) (h_out s) (h_data s) in
  (good_flags E O (h_n s) /\ ~ within E O (h_n s) (t_date t) /\ date_checked E O k s t path = (s1, SOk)) \/
  (good_flags E O (h_n s) /\ within E O (h_n s) (t_date t) /\ date_checked E O k s t path = k s1 t path) \/
  (~ good_flags E O (h_n s) /\ exists e, date_checked E O k s t path = (s1, SErr e)).
Proof.
  intros D k s t path s1. unfold date_checked. pose proof (within_spec E O (h_n s) t C) as K.
  destruct (withinDateRange E O (h_n s) t) as [[|]|e|]; [right; left|left|right; right|contradiction].
  - destruct K. auto.
  - destruct K. auto.
  - eauto.
Qed.

Lemma date_checked_run : forall D k (I : list used -> hstate D -> Prop),
  (forall sel s, I sel s -> I sel (HS (Datatypes.S (h_n s)) (h_out s) (h_data s))) ->
  (forall sel s u, I sel s -> exists s', k s (u_txn u) (u_path u) = (s', SOk) /\ I (sel ++ [u]) s' /\ h_n s' = h_n s) ->
  forall evs sel s, I sel s ->
    (flags_ok (txns (h_n s) evs) /\ exists s' more, deliver_all (Some (date_checked E O k)) None s evs = (s', SOk) /\
       in_range E O (txns (h_n s) evs) more /\ I (sel ++ more) s') \/
    (~ flags_ok (txns (h_n s) evs) /\ exists s' e, deliver_all (Some (date_checked E O k)) None s evs = (s', SErr e)).
Proof.
  intros D k I I1 I2. induction evs as [|[t p|pt p] evs IH]; intros sel s H; cbn [deliver_all].
  - left. split; [constructor|]. exists s, []. split; [reflexivity|]. split; [constructor|]. now rewrite app_nil_r.
  - cbn [deliver txns].
    destruct (date_checked_cases D k s t p) as [(G & W & ->)|[(G & W & ->)|(G & e & ->)]].
    + destruct (IH _ _ (I1 _ _ H)) as [(F & s' & more & R & Rg & Im)|(F & s' & e & R)]; cbn [h_n] in *.
      * left. split; [constructor; auto|]. exists s', more. split; [exact R|]. split; [apply RangeOut; auto|exact Im].
      * right. split; [intro X; inversion X; contradiction|eauto].
    + destruct (I2 sel _ (Used (h_n s) t p) (I1 _ _ H)) as (s1 & Ek & Is & Hn). cbn [u_txn u_path] in Ek. rewrite Ek.
      destruct (IH _ _ Is) as [(F & s' & more & R & Rg & Im)|(F & s' & e & R)]; rewrite Hn in *; cbn [h_n] in *.
      * left. split; [constructor; auto|]. exists s', (Used (h_n s) t p :: more). split; [exact R|].
        split; [apply RangeIn; auto|]. now rewrite <- app_assoc in Im.
      * right. split; [intro X; inversion X; contradiction|eauto].
    + right. split; [intro X; inversion X; contradiction|eauto].
  - cbn [deliver txns]. apply IH. exact H.
Qed.
End Runs.

(** ** Filters made from arguments *)
Lemma decode_rune_low : forall b s, fst (decode_rune (b :: s)) < 128 -> fst (decode_rune (b :: s)) = b.
Proof.
  intros b s. unfold decode_rune. destruct s as [|b1 [|b2 [|b3 q]]]; repeat destr_if; cbn [fst]; bounds; unfold RuneError; lia.
Qed.
Lemma decode_rune_ascii : forall b s, 0 <= b < 128 -> fst (decode_rune (b :: s)) = b.
Proof.
  intros b s H. unfold decode_rune. destruct (between 0 b 127) eqn:B; [reflexivity|]. bounds. lia.
Qed.

Lemma newFilter_spec : forall E a f, newFilter (e_unicode E) (e_re_ok E) a = POk f <->
  filter_for E a f /\ e_re_ok E (f_regex f) = true.
Proof.
  intros E a f. unfold newFilter. destruct a as [|b a]; [cbn; split; [discriminate|intros [H _]; inversion H; contradiction]|].
  rewrite decode_cons by discriminate. set (r := fst (decode_rune (b :: a))).
  assert (R : forall x, 0 <= x < 128 -> (r =? x) = (b =? x)).
  { intros x Hx. destruct (Z.eqb_spec b x) as [->|Ne].
    - unfold r. rewrite decode_rune_ascii by lia. apply Z.eqb_refl.
    - apply Z.eqb_neq. intro X. apply Ne. rewrite <- X. symmetry. apply decode_rune_low. fold r. lia. }
  rewrite !R by lia. cbn [skipn]. change (smart_case (e_unicode E)) with (case_text E).
  destruct (Z.eqb_spec b 64) as [->|N1]; [|destruct (Z.eqb_spec b 61) as [->|N2]].
  - split.
    + destruct (e_re_ok E (case_text E a)) eqn:K; [|discriminate]. intro H. injection H as <-. split; [constructor|exact K].
    + intros [H K]. inversion H; subst; cbn in *; try congruence. now rewrite K.
  - split.
    + destruct (e_re_ok E (case_text E a)) eqn:K; [|discriminate]. intro H. injection H as <-. split; [constructor|exact K].
    + intros [H K]. inversion H; subst; cbn in *; try congruence. now rewrite K.
  - split.
    + destruct (e_re_ok E (case_text E (b :: a))) eqn:K; [|discriminate]. intro H. injection H as <-.
      split; [constructor; auto; discriminate|exact K].
    + intros [H K]. inversion H; subst; cbn in *; try congruence. now rewrite K.
Qed.

Lemma makeFilters_spec : forall E args fs, makeFilters E args = POk fs <-> filters_for E args fs.
Proof.
  intros E. unfold filters_for. induction args as [|a args IH]; intro fs; cbn [makeFilters].
  - split; [intro H; inversion H; auto|]. intros [H _]. inversion H; reflexivity.
  - pose proof (newFilter_spec E a) as N. split.
    + destruct (newFilter (e_unicode E) (e_re_ok E) a) as [f|e|]; try discriminate.
      destruct (makeFilters E args) as [fs'|e|]; try discriminate. intro H. injection H as <-.
      destruct (proj1 (IH fs') eq_refl). destruct (proj1 (N f) eq_refl). auto.
    + intros [H K]. inversion H as [|? f ? fs' F1 F2]; subst. inversion K; subst.
      rewrite (proj2 (N f)) by auto. rewrite (proj2 (IH fs')) by auto. reflexivity.
Qed.

Lemma filters_fun : forall E args fs fs', filters_for E args fs -> filters_for E args fs' -> fs = fs'.
Proof. intros E args fs fs' H H'. apply makeFilters_spec in H, H'. congruence. Qed.

Lemma hits_in : forall E fs t p, In p (hits E fs t) -> In p (t_postings t).
Proof.
  intros E fs t p. unfold hits. destruct fs; [auto|]. destruct (whole_hit E _ t); [auto|]. intro H. now apply filter_In in H.
Qed.

Lemma picks_fun : forall E O fs us sel sel', picks E O fs us sel -> picks E O fs us sel' -> map fst sel = map fst sel'.
Proof.
  intros E O fs us sel sel' H. revert sel'. induction H as [|u us sel No _ IH|u us sel ps W Ht P Wh _ IH]; intros sel' H'.
  - inversion H'. reflexivity.
  - inversion H'; subst; [auto|]. destruct No as [No|No]; [contradiction|congruence].
  - inversion H' as [|? ? ? No H2|? ? ? ps' W' Ht' P' Wh' H2]; subst.
    + destruct No as [No|No]; [contradiction|congruence].
    + cbn. f_equal. now apply IH.
Qed.

Lemma picks_in : forall E O fs us sel u ps, picks E O fs us sel -> In (u, ps) sel ->
  In u us /\ within E O (u_n u) (t_date (u_txn u)) /\ hit E fs (u_txn u) = true /\ Permutation ps (hits E fs (u_txn u)).
Proof.
  intros E O fs us sel u ps H. induction H as [|v us sel No _ IH|v us sel ps' W Ht P Wh _ IH]; intro I.
  - contradiction.
  - destruct (IH I) as (A & B). split; [now right|exact B].
  - destruct I as [I|I].
    + inversion I; subst. split; [now left|]. auto.
    + destruct (IH I) as (A & B). split; [now right|exact B].
Qed.

Lemma txns_in : forall evs n u, In u (txns n evs) -> In (ETxn (u_txn u) (u_path u)) evs.
Proof.
  induction evs as [|[t p|pt p] evs IH]; intros n u H; cbn [txns] in H.
  - contradiction.
  - destruct H as [<-|H]; [now left|]. right. eapply IH; eauto.
  - right. eapply IH; eauto.
Qed.

Lemma makeFilters_nil : forall E, makeFilters E [] = POk [].
Proof. reflexivity. Qed.

(** ** Sorted lists of names *)
Lemma ascending_iff : forall a b, str_ltb a b = true <-> bytes_lt a b.
Proof.
  induction a as [|x a IH]; intros [|y b]; cbn [str_ltb].
  - split; [discriminate|intro H; inversion H].
  - split; [constructor|reflexivity].
  - split; [discriminate|intro H; inversion H].
  - rewrite orb_true_iff, andb_true_iff, Z.ltb_lt, Z.eqb_eq, IH. split.
    + intros [L|[-> L]]; [now apply SmallerByte|now apply SameByte].
    + intro X. inversion X; subst; auto.
Qed.

Lemma sorted_strict : forall l, NoDup l -> StronglySorted bytes_lt (sort_strings l).
Proof.
  intros l N. pose proof (sort_strings_sorted l) as S. pose proof (sort_strings_perm l) as P.
  assert (N' : NoDup (sort_strings l)) by (eapply Permutation_NoDup; [symmetry; exact P|exact N]).
  clear P N. induction S as [|x s Ss IH F]; [constructor|]. inversion N'; subst. constructor; [auto|].
  rewrite Forall_forall in *. intros y Iy. apply ascending_iff. specialize (F y Iy). unfold le in F.
  destruct (str_ltb x y) eqn:L; [reflexivity|]. assert (x = y); [|subst; contradiction]. apply str_ltb_total; auto.
Qed.

Lemma set_add_in : forall x l y, In y (set_add x l) <-> In y l \/ y = x.
Proof.
  intros x l y. unfold set_add. destruct (existsb (str_eqb x) l) eqn:X.
  - apply existsb_exists in X as (z & I & Q). apply str_eqb_eq in Q. subst z. split; [auto|]. intros [H| ->]; auto.
  - rewrite in_app_iff. cbn. split; intros [H|H]; auto; intuition.
Qed.
Lemma set_add_nodup : forall x l, NoDup l -> NoDup (set_add x l).
Proof.
  intros x l N. unfold set_add. destruct (existsb (str_eqb x) l) eqn:X; [exact N|].
  apply Permutation_NoDup with (x :: l); [apply Permutation_cons_append|]. constructor; [|exact N].
  intro I. assert (existsb (str_eqb x) l = true); [|congruence]. apply existsb_exists. exists x. split; [exact I|apply str_eqb_refl].
Qed.
Lemma set_adds_in : forall (f : posting -> str) ps l y,
  In y (fold_left (fun u p => set_add (f p) u) ps l) <-> In y l \/ exists p, In p ps /\ f p = y.
Proof.
  intro f. induction ps as [|p ps IH]; intros l y; cbn [fold_left].
  - split; [auto|]. intros [H|(p & [] & _)]. exact H.
  - rewrite IH, set_add_in. split.
    + intros [[H| ->]|(p' & I & Q)]; [auto| |]; right; eexists; split; [left; reflexivity|reflexivity|right; exact I|exact Q].
    + intros [H|(p' & [->|I] & <-)]; [auto|auto|]. right. eauto.
Qed.
Lemma set_adds_nodup : forall (f : posting -> str) ps l, NoDup l -> NoDup (fold_left (fun u p => set_add (f p) u) ps l).
Proof. intro f. induction ps as [|p ps IH]; intros l N; cbn; [exact N|]. apply IH. now apply set_add_nodup. Qed.
