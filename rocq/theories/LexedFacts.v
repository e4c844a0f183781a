(** * What the texts in a lexed line look like *)
From Verif Require Import Base BaseFacts Utf8 Utf8Facts Unicode GoTime Strconv Journal Lexer LexSpec LexerFacts LexText
  Parser FlatSpec Spec TextSpec JournalText.

(** ** Line feeds *)
Lemma decode_no_lf : forall s, ~ In 10 s -> ~ In 10 (decode s).
Proof.
  apply (decode_ind (fun s => ~ In 10 s -> ~ In 10 (decode s))); [auto|]. intros s N IH H.
  rewrite decode_cons by assumption. intros [E|I].
  - destruct s as [|p0 p']; [contradiction|]. apply H. left. unfold decode_rune in E.
    destruct p' as [|b1 [|b2 [|b3 q]]]; repeat destr_if; cbn [fst] in E; bounds; unfold RuneError in *; lia.
  - revert I. apply IH. intro I. apply H. rewrite <- (firstn_skipn (snd (decode_rune s)) s). apply in_or_app. now right.
Qed.

Lemma encode_no_lf : forall rs, ~ In 10 rs -> ~ In 10 (encode rs).
Proof.
  intros rs H I. apply in_flat_map in I as (r & Ir & I). apply H. replace 10 with r; [exact Ir|].
  unfold encode_rune in I. set (v := if valid_rune r then r else RuneError) in I.
  assert (V : 0 <= v) by (unfold v; destruct (valid_rune r) eqn:E; [apply valid_rune_iff in E; lia|unfold RuneError; lia]).
  assert (M : forall x, 0 <= x mod 64) by (intro x; apply Z.mod_pos_bound; lia).
  assert (D : forall k, 0 < k -> 0 <= v / k) by (intros k K; apply Z.div_pos; lia).
  repeat destr_if; cbn [In] in I.
  - destruct I as [I|[]]. unfold v in I. destruct (valid_rune r); [exact I|discriminate].
  - pose proof (M v); pose proof (D 64 ltac:(lia)). lia.
  - pose proof (M v); pose proof (M (v / 64)); pose proof (D 4096 ltac:(lia)). lia.
  - pose proof (M v); pose proof (M (v / 64)); pose proof (M (v / 4096)); pose proof (D 262144 ltac:(lia)). lia.
Qed.

Lemma chop_cr_incl : forall s x, In x (chop_cr s) -> In x s.
Proof.
  intros s x. unfold chop_cr. destruct (rev s) as [|y r] eqn:E; [auto|].
  assert (K : In x (rev r) -> In x s) by (intro I; rewrite <- (rev_involutive s), E; cbn; apply in_or_app; now left).
  destruct y as [|p|p]; auto. repeat (destruct p as [p|p|]; auto).
Qed.

Lemma raw_lines_no_lf : forall s cur l b, ~ In 10 cur -> In (l, b) (raw_lines cur s) -> ~ In 10 l.
Proof.
  induction s as [|c s IH]; intros cur l b N I; cbn [raw_lines] in I.
  - destruct cur as [|x cur]; [destruct I|]. destruct I as [I|[]]. injection I as <- <-. intro K. apply N, in_rev. exact K.
  - destruct (Z.eqb_spec c newline) as [->|E].
    + destruct I as [I|I]; [injection I as <- <-; now rewrite <- in_rev|]. eapply IH; [|exact I]. auto.
    + eapply IH; [|exact I]. intros [H|H]; auto.
Qed.

Lemma file_lines_no_lf : forall s l, In (Line l) (file_lines s) -> ~ In 10 l.
Proof.
  intros s l I. unfold file_lines in I. apply in_map_iff in I as ([w t] & E & I). apply raw_lines_no_lf in I; [|auto].
  unfold read_line in E. destruct (bufferSize <=? Z.of_nat (length w)); [discriminate|]. injection E as <-.
  destruct t; [|exact I]. intro K. apply I. now apply chop_cr_incl.
Qed.

Definition lines_no_lf (ls : list fline) : Prop := Forall (fun x => match x with FLine l => ~ In 10 l | FStop _ => True end) ls.

Lemma expand_no_lf : forall U fs depth hint f, lines_no_lf (expand U fs depth hint f).
Proof.
  intros U fs.
  assert (K : forall inc hint bad ls, (forall p, lines_no_lf (inc p)) -> (forall l, In (Line l) ls -> ~ In 10 l) ->
    lines_no_lf (expand_lines U inc hint bad ls)).
  { intros inc hint bad ls H. induction ls as [|[l|] ls IH]; intro N; cbn [expand_lines].
    - destruct bad; repeat constructor. auto.
    - destruct (included U hint l) eqn:E.
      + apply Forall_app. split; [apply H|]. apply IH. intros l' I. apply N. now right.
      + constructor; [apply N; now left|]. apply IH. intros l' I. apply N. now right.
    - repeat constructor. }
  induction depth as [|d IH]; intros hint f; cbn [expand]; apply K; try (intros l; apply file_lines_no_lf).
  - intro p. repeat constructor.
  - intro p. destruct (fs p); [apply IH|repeat constructor].
Qed.

(** ** The scanners *)
Lemma drop_space_incl : forall rs x, In x (drop_space rs) -> In x rs.
Proof. induction rs as [|r rs IH]; intros x I; cbn in *; [exact I|]. destruct (isSpace r); [right; auto|exact I]. Qed.
Lemma drop_space_hd : forall rs, isSpace (hd 0 (drop_space rs)) = false.
Proof. induction rs as [|r rs IH]; cbn; [reflexivity|]. destruct (isSpace r) eqn:E; [exact IH|exact E]. Qed.
Lemma until_space_incl : forall rs a b x, until_space rs = (a, b) -> In x b -> In x rs.
Proof.
  induction rs as [|r rs IH]; intros a b x E I; cbn in E; [injection E as <- <-; exact I|].
  destruct (r =? c_space); [injection E as <- <-; exact I|]. destruct (until_space rs) as [a' b']. injection E as <- <-. right. eauto.
Qed.

Lemma until_space_fst : forall rs a b x, until_space rs = (a, b) -> In x a -> In x rs.
Proof.
  induction rs as [|r rs IH]; intros a b x E I; cbn in E; [injection E as <- <-; exact I|].
  destruct (r =? c_space); [injection E as <- <-; destruct I|]. destruct (until_space rs) as [a' b']. injection E as <- <-.
  destruct I as [I|I]; [now left|right; eauto].
Qed.

Lemma trimSpaceEnd_cases : forall rs, (ends_nonspace rs /\ trimSpaceEnd rs = rs) \/ rs = trimSpaceEnd rs ++ [c_space].
Proof.
  intro rs. unfold trimSpaceEnd. destruct (rev rs) as [|r l] eqn:E.
  - left. split; [|reflexivity]. apply (f_equal (@rev Z)) in E. rewrite rev_involutive in E. subst. discriminate.
  - assert (rs = rev l ++ [r]) as X by (rewrite <- (rev_involutive rs), E; reflexivity).
    destruct (Z.eqb_spec r c_space) as [->|N]; [right; exact X|]. left. split; [|reflexivity].
    unfold ends_nonspace. rewrite X, last_last. exact N.
Qed.

Lemma single_spaced_end : forall a, single_spaced (a ++ [c_space]) = true -> ends_nonspace a.
Proof.
  intros a H. unfold ends_nonspace. destruct a as [|x a] using rev_ind; [discriminate|]. clear IHa.
  rewrite last_last. rewrite <- app_assoc in H. apply single_spaced_app in H as [_ H]. cbn in H.
  intros ->. discriminate.
Qed.

(** Cutting one space off the end of a single-spaced text. *)
Lemma trimSpaceEnd_single : forall rs, single_spaced rs = true ->
  single_spaced (trimSpaceEnd rs) = true /\ ends_nonspace (trimSpaceEnd rs) /\ (forall x, In x (trimSpaceEnd rs) -> In x rs).
Proof.
  intros rs S. destruct (trimSpaceEnd_cases rs) as [[E ->]|E]; [auto|]. rewrite E in S.
  split; [now apply single_spaced_app in S|]. split; [now apply single_spaced_end|].
  intros x I. rewrite E. apply in_or_app. now left.
Qed.

Lemma to_tab_shape : forall rs acc a b, to_tab acc rs = (a, b) ->
  exists m rest, rs = m ++ rest /\ unbroken m /\ (forall x, In x b -> In x rs) /\
    (a = trimSpaceEnd (acc ++ m) \/ (a = acc ++ m /\ ends_nonspace m /\ exists r', rest = c_space :: c_space :: r')).
Proof.
  induction rs as [|r rs IH]; intros acc a b H; cbn [to_tab] in H.
  - injection H as <- <-. exists [], []. rewrite (app_nil_r acc). split; [reflexivity|]. split; [split; [constructor|reflexivity]|]. auto.
  - destruct (isCommentIndicator r || (r =? c_tab)) eqn:B.
    { injection H as <- <-. exists [], (r :: rs). rewrite (app_nil_r acc). split; [reflexivity|]. split; [split; [constructor|reflexivity]|].
      split; [intros x I; now right|auto]. }
    destruct ((r =? c_space) && match rs with r2 :: _ => r2 =? c_space | [] => false end) eqn:D.
    { injection H as <- <-. exists [], (r :: rs). rewrite (app_nil_r acc). split; [reflexivity|]. split; [split; [constructor|reflexivity]|].
      split; [intros x I; now right|right]. split; [reflexivity|]. split; [discriminate|].
      apply andb_true_iff in D as [D1 D2]. destruct rs as [|r2 rs]; [discriminate|]. apply Z.eqb_eq in D1, D2. subst. eauto. }
    destruct (IH _ _ _ H) as (m & rest & E & [U1 U2] & P & C). exists (r :: m), rest. rewrite E. split; [reflexivity|].
    split; [split; [constructor; assumption|]|split].
    + cbn [single_spaced]. rewrite U2, andb_true_r. apply negb_true_iff. destruct m as [|x m]; [now rewrite andb_false_r|].
      rewrite E in D. exact D.
    + intros x I. right. rewrite <- E. auto.
    + rewrite <- app_assoc in C. destruct C as [C|(C1 & C2 & r' & C3)]; [left; exact C|]. right.
      split; [exact C1|]. split; [|eauto]. destruct m as [|x m]; [|exact C2]. unfold ends_nonspace. cbn. intros ->.
      rewrite E, C3 in D. discriminate.
Qed.

(** Payees, periods and the like: nothing, or a phrase. *)
Lemma to_tab_phrase : forall rs a b, to_tab [] (drop_space rs) = (a, b) ->
  (a = [] \/ phrase a) /\ (a <> [] -> hd 0 a = hd 0 (drop_space rs)) /\
  (forall x, In x a -> In x rs) /\ (forall x, In x b -> In x rs).
Proof.
  intros rs a b H. destruct (to_tab_shape _ _ _ _ H) as (m & rest & E & [U1 U2] & P & C). cbn [app] in C.
  assert (K : ends_nonspace a /\ single_spaced a = true /\ (forall x, In x a -> In x m) /\ (a <> [] -> hd 0 a = hd 0 m)).
  { destruct C as [->|(-> & N & _)]; [|auto]. destruct (trimSpaceEnd_single m U2) as (A & B & C). repeat split; auto.
    intro N. destruct (trimSpaceEnd_cases m) as [[_ ->]|X]; [reflexivity|]. rewrite X at 2. destruct (trimSpaceEnd m); [contradiction|reflexivity]. }
  destruct K as (K1 & K2 & K3 & K4).
  assert (HD : a <> [] -> hd 0 a = hd 0 (drop_space rs)).
  { intro N. rewrite K4, E by assumption. destruct m; [|reflexivity]. destruct a; [contradiction|]. now destruct (K3 z (or_introl eq_refl)). }
  split; [|split; [exact HD|split]].
  - destruct a as [|x a]; [now left|right]. split; [discriminate|]. split; [split; [|exact K2]|split; [|exact K1]].
    + apply Forall_forall. intros y I. rewrite Forall_forall in U1. auto.
    + rewrite HD by discriminate. apply drop_space_hd.
  - intros x I. apply drop_space_incl. rewrite E. apply in_or_app. left. auto.
  - intros x I. apply drop_space_incl. auto.
Qed.

Lemma account_name_shape : forall rs acc previous a b, account_name acc previous rs = (a, b) ->
  previous = (last acc 0 =? c_space) ->
  exists m rest, rs = m ++ rest /\ Forall (fun r => (r =? c_tab) = false) m /\
    single_spaced (if previous then c_space :: m else m) = true /\ a = trimSpaceEnd (acc ++ m) /\
    (forall x, In x b -> In x rs \/ x = c_space).
Proof.
  assert (S1 : forall acc previous, previous = (last acc 0 =? c_space) ->
    (if previous then removelast acc else acc) = trimSpaceEnd acc).
  { intros acc previous ->. destruct (trimSpaceEnd_cases acc) as [[N ->]|X].
    - apply Z.eqb_neq in N. now rewrite N.
    - assert (L : last acc 0 = c_space) by (rewrite X; apply last_last). rewrite L, Z.eqb_refl. rewrite X at 1. apply removelast_last. }
  induction rs as [|r rs IH]; intros acc previous a b H E; cbn [account_name] in H.
  - injection H as <- <-. exists [], []. rewrite (app_nil_r acc). repeat split; auto. now destruct previous.
  - destruct (r =? c_tab) eqn:B.
    { injection H as <- <-. exists [], (r :: rs). rewrite (app_nil_r acc). repeat split; auto. now destruct previous. }
    destruct ((r =? c_space) && previous) eqn:D.
    { injection H as <- <-. exists [], (r :: rs). rewrite (app_nil_r acc). apply andb_true_iff in D as [_ D].
      specialize (S1 _ _ E). rewrite D in S1 |- *. repeat split; auto. intros x [I|I]; auto. }
    destruct (IH _ _ _ _ H) as (m & rest & Er & T & S & A & P). { now rewrite last_last. }
    exists (r :: m), rest. rewrite Er. split; [reflexivity|]. split; [constructor; assumption|]. split; [|split].
    + assert (S2 : single_spaced (r :: m) = true).
      { destruct (Z.eqb_spec r c_space) as [->|N]; [exact S|]. cbn [single_spaced]. rewrite S, andb_true_r.
        apply Z.eqb_neq in N. now rewrite N. }
      destruct previous; [|exact S2]. cbn [single_spaced] in S2 |- *. rewrite S2, andb_true_r.
      rewrite andb_true_r in D. now rewrite D, andb_false_r.
    + now rewrite <- app_assoc in A.
    + intros x I. destruct (P x I) as [K|K]; [left; right; rewrite <- Er; exact K|now right].
Qed.

Lemma account_name_text : forall U r rs a b, isLetter U r = true -> isSpace r = false ->
  account_name [] false (r :: rs) = (a, b) ->
  account_text U a /\ (forall x, In x a -> In x (r :: rs)) /\ (forall x, In x b -> In x (r :: rs) \/ x = c_space).
Proof.
  intros U r rs a b L NS H. destruct (account_name_shape _ _ _ _ _ H eq_refl) as (m & rest & E & T & S & A & P). cbn [app] in A.
  assert (N : r <> c_space) by (intros ->; discriminate).
  assert (NT : (r =? c_tab) = false) by (apply Z.eqb_neq; intros ->; discriminate).
  assert (M : exists m', m = r :: m').
  { destruct m as [|x m]; [|injection E as -> _; eauto]. exfalso. cbn [app] in E.
    cbn [account_name] in H. rewrite NT in H. apply Z.eqb_neq in N. rewrite N in H. cbn [andb app] in H.
    destruct (account_name_shape _ _ _ _ _ H) as (m' & _ & _ & _ & _ & A' & _). { cbn. now rewrite N. }
    rewrite A in A'. cbn [app] in A'. change (trimSpaceEnd []) with (@nil Z) in A'.
    destruct (trimSpaceEnd_cases (r :: m')) as [[_ X]|X]; rewrite <- A' in X; [discriminate|]. cbn in X. injection X as X _.
    apply Z.eqb_neq in N. contradiction. }
  destruct M as [m' ->]. destruct (trimSpaceEnd_single _ S) as (S1 & S2 & S3). rewrite <- A in S1, S2, S3.
  assert (HD : exists a', a = r :: a').
  { destruct (trimSpaceEnd_cases (r :: m')) as [[_ X]|X]; rewrite <- A in X; [eauto|]. destruct a as [|y a]; [|injection X as -> _; eauto].
    injection X as X _. contradiction. }
  destruct HD as [a' Ea]. split; [|split; [|exact P]].
  - rewrite <- ?A in S1, S2, S3. clear A. subst a. split; [discriminate|]. split; [exact L|]. split; [split; [exact NS|exact S2]|]. split; [|exact S1].
    apply Forall_forall. intros x I. rewrite Forall_forall in T. auto.
  - intros x I. rewrite E. apply in_or_app. left. auto.
Qed.

Lemma commodity_name_shape : forall U rs a b, commodity_name U rs = (a, b) ->
  rs = a ++ b /\ Forall (commodity_char U) a.
Proof.
  intro U. induction rs as [|r rs IH]; intros a b H; cbn [commodity_name] in H; [injection H as <- <-; split; [reflexivity|constructor]|].
  match type of H with context [if ?x then _ else _] => destruct x eqn:C end; [injection H as <- <-; split; [reflexivity|constructor]|].
  destruct (commodity_name U rs) as [a' b'] eqn:E. injection H as <- <-. destruct (IH _ _ eq_refl) as [-> F].
  split; [reflexivity|]. constructor; [exact C|exact F].
Qed.

(** A note: blank, or starting with no space. *)
Lemma trimSpaceStart_cases : forall rs, (blank rs /\ trimSpaceStart rs = rs) \/
  (remark (trimSpaceStart rs) /\ forall x, In x (trimSpaceStart rs) -> In x rs).
Proof.
  intro rs.
  assert (K : forall rs i, (blank rs /\ first_nonspace rs i = None) \/
    exists k, first_nonspace rs i = Some (k + i)%nat /\ remark (skipn k rs)).
  { clear rs. induction rs as [|r rs IH]; intro i; cbn [first_nonspace]; [left; split; [constructor|reflexivity]|].
    destruct (Z.eqb_spec r c_space) as [->|N]; cbn [negb].
    - destruct (IH (Datatypes.S i)) as [[B E]|(k & E & R)]; [left; split; [constructor; auto|exact E]|].
      right. exists (Datatypes.S k). rewrite E. split; [f_equal; lia|exact R].
    - right. exists 0%nat. split; [reflexivity|]. split; [discriminate|exact N]. }
  destruct rs as [|r rs]; [left; split; [constructor|reflexivity]|].
  unfold trimSpaceStart. destruct (K (r :: rs) 0%nat) as [[B ->]|(k & -> & R)]; [left; auto|]. right.
  rewrite Nat.add_0_r. split; [exact R|]. intros x I. rewrite <- (firstn_skipn k (r :: rs)). apply in_or_app. now right.
Qed.

(** ** The items of a line *)
Section Items.
Variable U : unicode.

Definition noted (c : list Z) : Prop := blank c \/ remark c.
Definition clean (c : list Z) : Prop := Forall (fun r => valid_rune r = true) c /\ ~ In 10 c.

(** An item after the item [prev] of the same line. *)
Definition item_ok (prev : option itemType) (i : itemType) (c : list Z) : Prop :=
  match i with
  | payeeItem => clean c /\ (c = [] \/ phrase c) /\
      (prev = Some stateItem \/ (prev = Some dateItem /\ hd 0 c <> c_bang /\ hd 0 c <> c_star))
  | stateItem => prev = Some dateItem /\ (c = [c_bang] \/ c = [c_star])
  | transactionHeaderCommentItem => prev = Some payeeItem /\ clean c /\ noted c
  | commentItem => prev = None /\ clean c /\ noted c
  | accountItem => prev = None /\ clean c /\ account_text U c
  | commodityItem => prev = Some accountItem /\ clean c /\ commodity_text U c
  | amountItem => prev = Some commodityItem
  | dateItem => prev = None /\ clean c
  | _ => prev = None
  end.

Fixpoint items_ok (prev : option itemType) (items : list (itemType * list Z)) : Prop :=
  match items with
  | [] => True
  | (i, c) :: rest => item_ok prev i c /\ items_ok (Some i) rest
  end.

Lemma clean_incl : forall a b, clean b -> (forall x, In x a -> In x b) -> clean a.
Proof.
  intros a b [V N] H. split; [|auto]. apply Forall_forall. intros x I. rewrite Forall_forall in V. auto.
Qed.

Lemma trim_note : forall rs, clean rs -> clean (trimSpaceStart rs) /\ noted (trimSpaceStart rs).
Proof.
  intros rs C. destruct (trimSpaceStart_cases rs) as [[B E]|[R I]].
  - rewrite E. split; [exact C|now left].
  - split; [eapply clean_incl; eauto|now right].
Qed.

Lemma header_items_ok : forall rs, clean rs -> items_ok None (fst (header_line rs)).
Proof.
  intros rs C. unfold header_line. destruct (until_space rs) as [w rs1] eqn:Eu.
  assert (C1 : clean rs1) by (eapply clean_incl; [exact C|intros x; eapply until_space_incl; eauto]).
  assert (Cw : None = @None itemType /\ clean w) by (split; [reflexivity|eapply clean_incl; [exact C|intros x; eapply until_space_fst; eauto]]).
  assert (K : forall prev rs3, clean rs3 -> (prev = Some stateItem \/ (prev = Some dateItem /\ hd 0 (drop_space rs3) <> c_bang /\ hd 0 (drop_space rs3) <> c_star)) ->
    items_ok prev (fst (let '(payee, rs4) := to_tab [] (drop_space rs3) in
      let note := match trimSpaceStart rs4 with [] => [] | _ :: note => [(transactionHeaderCommentItem, trimSpaceStart note)] end in
      ((payeeItem, payee) :: note, @None err)))).
  { intros prev rs3 C3 P. destruct (to_tab [] (drop_space rs3)) as [payee rs4] eqn:Et.
    destruct (to_tab_phrase _ _ _ Et) as (Ph & Hd & I1 & I2). cbn [fst items_ok item_ok]. split; [split; [|split]|].
    - eapply clean_incl; eauto.
    - exact Ph.
    - destruct P as [P|[P1 P2]]; [now left|right]. split; [exact P1|]. destruct payee as [|y payee]; [split; discriminate|].
      rewrite Hd by discriminate. exact P2.
    - assert (C4 : clean rs4) by (eapply clean_incl; eauto). destruct (trim_note rs4 C4) as [C5 _].
      destruct (trimSpaceStart rs4) as [|y note]; [exact I|]. cbn [items_ok item_ok]. split; [|exact I].
      split; [reflexivity|]. apply trim_note. eapply clean_incl; [exact C5|intros x Hx; now right]. }
  assert (HS : forall rs, drop_space (drop_space rs) = drop_space rs).
  { clear. induction rs as [|r rs IH]; cbn; [reflexivity|]. destruct (isSpace r) eqn:E; [exact IH|]. cbn. now rewrite E. }
  destruct (drop_space rs1) as [|r rs'] eqn:Ed.
  - pose proof (K (Some dateItem) rs1 C1) as X. rewrite Ed in X.
    assert (Z0 : hd 0 (@nil Z) <> c_bang /\ hd 0 (@nil Z) <> c_star) by (split; discriminate).
    specialize (X (or_intror (conj eq_refl Z0))).
    destruct (to_tab [] []) as [payee rs4]. cbn [fst app] in *. cbn [items_ok item_ok]. split; [exact Cw|exact X].
  - assert (C' : clean rs'). { eapply clean_incl; [exact C1|]. intros x I. apply drop_space_incl. rewrite Ed. now right. }
    destruct ((r =? c_bang) || (r =? c_star)) eqn:Em.
    + pose proof (K (Some stateItem) rs' C' (or_introl eq_refl)) as X. destruct (to_tab [] (drop_space rs')) as [payee rs4]. cbn [fst app] in *.
      cbn [items_ok item_ok]. split; [exact Cw|]. split; [|exact X]. split; [reflexivity|].
      apply orb_true_iff in Em as [Em|Em]; apply Z.eqb_eq in Em; subst; auto.
    + apply orb_false_iff in Em as [E1 E2]. apply Z.eqb_neq in E1, E2.
      pose proof (K (Some dateItem) rs1 C1) as X. rewrite Ed in X. specialize (X (or_intror (conj eq_refl (conj E1 E2)))).
      destruct (to_tab [] (r :: rs')) as [payee rs4]. cbn [fst app] in *. cbn [items_ok item_ok]. split; [exact Cw|exact X].
Qed.

Lemma posting_items_ok : forall rs, clean rs -> items_ok None (fst (posting_line U rs)).
Proof.
  intros rs C. unfold posting_line. pose proof (drop_space_hd rs) as HD.
  assert (CD : clean (drop_space rs)) by (eapply clean_incl; [exact C|apply drop_space_incl]).
  destruct (drop_space rs) as [|r rs'] eqn:Ed; [exact I|]. cbn in HD.
  assert (C' : clean rs') by (eapply clean_incl; [exact CD|intros x Hx; now right]).
  destruct (isCommentIndicator r).
  { cbn [fst items_ok item_ok]. split; [|exact I]. split; [reflexivity|]. now apply trim_note. }
  destruct (isLetter U r) eqn:L; [|exact I].
  destruct (account_name [] false (r :: rs')) as [account rs1] eqn:Ea.
  destruct (account_name_text U _ _ _ _ L HD Ea) as (T & I1 & I2).
  assert (CA : clean account) by (eapply clean_incl; [exact CD|exact I1]).
  assert (C1 : clean rs1).
  { destruct CD as [V N]. split.
    - apply Forall_forall. intros x Hx. destruct (I2 x Hx) as [K| ->]; [|reflexivity]. rewrite Forall_forall in V. auto.
    - intro Hx. destruct (I2 _ Hx) as [K|K]; [auto|discriminate]. }
  destruct rs1 as [|y rs1]; [cbn [fst items_ok item_ok]; auto|].
  pose proof (drop_space_hd (y :: rs1)) as HD1.
  assert (C2 : clean (drop_space (y :: rs1))) by (eapply clean_incl; [exact C1|apply drop_space_incl]).
  destruct (commodity_name U (drop_space (y :: rs1))) as [commodity rs2] eqn:Ec.
  destruct (commodity_name_shape _ _ _ _ Ec) as [E F].
  assert (CC : clean commodity) by (eapply clean_incl; [exact C2|intros x Hx; rewrite E; apply in_or_app; now left]).
  cbn [fst items_ok item_ok]. split; [auto|]. split; [|auto]. split; [reflexivity|].
  assert (HC : isSpace (hd 0 commodity) = false). { destruct commodity as [|z commodity]; [reflexivity|]. rewrite E in HD1. exact HD1. }
  destruct (0 <? space_width rs2) eqn:W.
  - split.
    + destruct CC as [V N]. split; [apply Forall_app; split; [exact V|repeat constructor]|].
      rewrite in_app_iff. intros [K|[K|[]]]; [auto|discriminate].
    + exists commodity. split; [exact F|]. split; [exact HC|]. right. split; [|reflexivity]. intros ->.
      cbn [app] in E. rewrite E in HD1. destruct rs2 as [|z rs2]; [discriminate|]. cbn in HD1, W. rewrite HD1 in W. discriminate.
  - split; [exact CC|]. exists commodity. auto.
Qed.

Lemma line_items_ok : forall l, ~ In 10 l -> items_ok None (fst (lexLine U [] l)).
Proof.
  intros l N. rewrite lexLine_spec. assert (C : clean (decode l)) by (split; [apply decode_valid|now apply decode_no_lf]).
  unfold lex_runes. destruct (decode l) as [|r rs]; [split; [reflexivity|exact I]|].
  assert (C' : clean rs) by (eapply clean_incl; [exact C|intros x Hx; now right]).
  destruct (isCommentIndicator r); [exact I|]. destruct (r =? c_i).
  { unfold include_line. destruct (until_space (r :: rs)) as [d rs1].
    destruct (negb (str_eqb d (lit "include"))); [exact I|]. destruct (space_width rs1 =? 0); [exact I|].
    destruct (fst (to_tab [] (drop_space rs1))); [exact I|]. split; [reflexivity|exact I]. }
  destruct (r =? c_tilde).
  { unfold period_line. destruct (space_width rs =? 0); [exact I|]. split; [reflexivity|exact I]. }
  destruct (isNumber U r); [now apply header_items_ok|].
  match goal with |- context [if ?b then _ else _] => destruct b end; [now apply posting_items_ok|exact I].
Qed.
End Items.
