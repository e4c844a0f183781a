(** * The lexer computes [lex_runes], terminates and stays in bounds *)
From Verif Require Import Base BaseFacts Utf8 Utf8Facts Unicode Lexer LexSpec.

(** The lexer [l] scans [inp] and has the runes [rs] before it. *)
Definition at_ (inp : str) (l : lexer) (rs : list Z) : Prop :=
  l_input l = inp /\ (l_pos l <= length inp)%nat /\ decode (skipn (l_pos l) inp) = rs.

Lemma at_fuel : forall inp l rs, at_ inp l rs -> (length rs < fuel_of l)%nat.
Proof.
  intros inp l rs (<- & H & <-). unfold fuel_of.
  assert (forall s, length (decode s) <= length s)%nat as D.
  { apply decode_ind; [cbn; lia|]. intros s N IH. rewrite decode_cons by assumption. cbn [length].
    pose proof (decode_rune_width s N). rewrite skipn_length in IH. lia. }
  specialize (D (skipn (l_pos l) (l_input l))). rewrite skipn_length in D. lia.
Qed.

Lemma next_eof : forall inp l, at_ inp l [] ->
  exists l', next l = (eof, l') /\ at_ inp l' [] /\ at_ inp (backup l') [] /\
             l_pos l' = l_pos l /\ l_pos (backup l') = l_pos l.
Proof.
  intros inp l (E & B & D). apply (proj1 (decode_nil_iff _)) in D.
  assert (length inp <= l_pos l)%nat.
  { apply (f_equal (@length Z)) in D. rewrite skipn_length in D. cbn in D. lia. }
  exists (Lx (l_input l) (l_pos l) 0). unfold next. rewrite E.
  destruct (length inp <=? l_pos l)%nat eqn:L; [|apply Nat.leb_gt in L; lia].
  unfold at_, backup. cbn. rewrite Nat.sub_0_r, D.
  repeat (split; [first [reflexivity | assumption]|]). auto.
Qed.

Lemma next_rune : forall inp l r rs, at_ inp l (r :: rs) ->
  exists l', next l = (r, l') /\ 0 <= r /\ at_ inp l' rs /\ at_ inp (backup l') (r :: rs) /\
             (l_pos l < l_pos l')%nat /\ l_pos (backup l') = l_pos l.
Proof.
  intros inp l r rs (E & B & D).
  assert (skipn (l_pos l) inp <> []) as N. { intro H. rewrite H in D. discriminate. }
  assert (l_pos l < length inp)%nat as L.
  { destruct (Nat.ltb_spec (l_pos l) (length inp)) as [H|H]; [assumption|].
    now rewrite skipn_all2 in N by lia. }
  pose proof (decode_rune_width _ N) as W. pose proof (decode_rune_nonneg (skipn (l_pos l) inp)) as R.
  rewrite decode_cons in D by assumption. unfold next. rewrite E.
  destruct (Nat.leb_spec (length inp) (l_pos l)); [lia|].
  destruct (decode_rune (skipn (l_pos l) inp)) as [r0 w] eqn:DR. cbn [fst snd] in *.
  injection D as -> D. rewrite skipn_length in W.
  exists (Lx inp (l_pos l + w) w). unfold at_, backup. cbn [l_input l_pos l_width].
  replace (l_pos l + w - w)%nat with (l_pos l) by lia.
  repeat split; try lia.
  - rewrite <- D. f_equal. rewrite skipn_skipn. f_equal. lia.
  - rewrite decode_cons by assumption. rewrite DR. cbn [fst snd]. now rewrite D.
Qed.

Lemma peek_eof : forall inp l, at_ inp l [] ->
  exists l', peek l = (eof, l') /\ at_ inp l' [] /\ l_pos l' = l_pos l.
Proof.
  intros inp l H. destruct (next_eof _ _ H) as (l' & E & _ & A & _ & P).
  exists (backup l'). unfold peek. rewrite E. auto.
Qed.

Lemma peek_rune : forall inp l r rs, at_ inp l (r :: rs) ->
  exists l', peek l = (r, l') /\ 0 <= r /\ at_ inp l' (r :: rs) /\ l_pos l' = l_pos l.
Proof.
  intros inp l r rs H. destruct (next_rune _ _ _ _ H) as (l' & E & R & _ & A & _ & P).
  exists (backup l'). unfold peek. rewrite E. auto.
Qed.

Lemma eof_neq : forall r, 0 <= r -> (r =? eof) = false.
Proof. intros. apply Z.eqb_neq. unfold eof. lia. Qed.

Lemma consumeSpace_loop_spec : forall fuel inp l rs count, at_ inp l rs -> (length rs < fuel)%nat ->
  exists l', consumeSpace_loop fuel l count = (count + space_width rs, l') /\
             at_ inp l' (drop_space rs) /\ (l_pos l <= l_pos l')%nat.
Proof.
  induction fuel as [|f IH]; intros inp l rs count A F; [lia|]. cbn [consumeSpace_loop].
  destruct rs as [|r rs].
  - destruct (next_eof _ _ A) as (l1 & E & _ & A' & _ & P). rewrite E. cbn.
    exists (backup l1). rewrite Z.add_0_r. repeat split; try apply A'. lia.
  - destruct (next_rune _ _ _ _ A) as (l1 & E & R & A1 & A2 & P & P'). rewrite E, eof_neq by assumption.
    cbn [orb]. cbn [space_width drop_space]. destruct (isSpace r); cbn [negb].
    + destruct (IH inp l1 rs (if r =? c_space then (if r =? c_tab then count + TabWidth else count) + 1
                              else (if r =? c_tab then count + TabWidth else count)) A1)
        as (l' & E' & A' & P''); [cbn in F; lia|].
      exists l'. rewrite E'. split; [|split; [assumption|lia]].
      f_equal. destruct (r =? c_tab) eqn:T; destruct (r =? c_space) eqn:Sp;
        rewrite ?Z.eqb_eq in *; unfold c_tab, c_space in *; lia.
    + exists (backup l1). rewrite Z.add_0_r. split; [reflexivity|]. split; [assumption|lia].
Qed.

Lemma consumeSpace_spec : forall inp l rs, at_ inp l rs ->
  exists l', consumeSpace l = (space_width rs, l') /\
             at_ inp l' (drop_space rs) /\ (l_pos l <= l_pos l')%nat.
Proof.
  intros. unfold consumeSpace. destruct (consumeSpace_loop_spec (fuel_of l) inp l rs 0 H (at_fuel _ _ _ H))
    as (l' & E & A). exists l'. rewrite E. auto.
Qed.

Lemma takeToNextLine_loop_spec : forall fuel inp l rs acc, at_ inp l rs -> (length rs < fuel)%nat ->
  exists l', takeToNextLine_loop fuel l acc = (trimSpaceStart (acc ++ rs), l') /\
             at_ inp l' [] /\ (l_pos l <= l_pos l')%nat.
Proof.
  induction fuel as [|f IH]; intros inp l rs acc A F; [lia|]. cbn [takeToNextLine_loop].
  destruct rs as [|r rs].
  - destruct (next_eof _ _ A) as (l1 & E & A1 & _ & P & _). rewrite E. cbn.
    exists l1. rewrite app_nil_r. split; [reflexivity|]. split; [assumption|lia].
  - destruct (next_rune _ _ _ _ A) as (l1 & E & R & A1 & _ & P & _). rewrite E, eof_neq by assumption.
    destruct (IH inp l1 rs (acc ++ [r]) A1) as (l' & E' & A' & P'); [cbn in F; lia|].
    exists l'. rewrite E', <- app_assoc. split; [reflexivity|]. split; [assumption|lia].
Qed.

Lemma takeToNextLine_spec : forall inp l rs, at_ inp l rs ->
  exists l', takeToNextLine l = (trimSpaceStart rs, l') /\ at_ inp l' [] /\ (l_pos l <= l_pos l')%nat.
Proof.
  intros. unfold takeToNextLine.
  destruct (takeToNextLine_loop_spec (fuel_of l) inp l rs [] H (at_fuel _ _ _ H)) as (l' & E & A).
  exists l'. auto.
Qed.

Lemma takeToTab_loop_spec : forall fuel inp l rs acc, at_ inp l rs -> (length rs < fuel)%nat ->
  exists l', takeToTab_loop fuel l acc = (fst (to_tab acc rs), l') /\
             at_ inp l' (snd (to_tab acc rs)) /\ (l_pos l <= l_pos l')%nat.
Proof.
  induction fuel as [|f IH]; intros inp l rs acc A F; [lia|]. cbn [takeToTab_loop].
  destruct rs as [|r rs].
  - destruct (next_eof _ _ A) as (l1 & E & A1 & _ & P & _). rewrite E. cbn.
    exists l1. split; [reflexivity|]. split; [assumption|lia].
  - destruct (next_rune _ _ _ _ A) as (l1 & E & R & A1 & _ & P & _). rewrite E, eof_neq by assumption.
    cbn [to_tab]. destruct (isCommentIndicator r); cbn [orb fst snd];
      [exists l1; split; [reflexivity|]; split; [assumption|lia]|].
    destruct (r =? c_tab); cbn [fst snd]; [exists l1; split; [reflexivity|]; split; [assumption|lia]|].
    cbn in F. destruct (r =? c_space); cbn [andb].
    + destruct rs as [|r2 rs].
      * destruct (peek_eof _ _ A1) as (l2 & E2 & A2 & P2). rewrite E2. cbn [Z.eqb].
        destruct (IH inp l2 [] (acc ++ [r]) A2) as (l' & E' & A' & P'); [cbn; lia|].
        replace (eof =? c_space) with false by reflexivity.
        exists l'. rewrite E'. split; [reflexivity|]. split; [assumption|lia].
      * destruct (peek_rune _ _ _ _ A1) as (l2 & E2 & R2 & A2 & P2). rewrite E2.
        destruct (r2 =? c_space); cbn [fst snd];
          [exists l2; split; [reflexivity|]; split; [assumption|lia]|].
        destruct (IH inp l2 (r2 :: rs) (acc ++ [r]) A2) as (l' & E' & A' & P'); [lia|].
        exists l'. rewrite E'. split; [reflexivity|]. split; [assumption|lia].
    + destruct (IH inp l1 rs (acc ++ [r]) A1) as (l' & E' & A' & P'); [lia|].
      exists l'. rewrite E'. split; [reflexivity|]. split; [assumption|lia].
Qed.

Lemma takeToTab_spec : forall inp l rs, at_ inp l rs ->
  exists l', takeToTabOrNextLineOrComment l = (fst (to_tab [] rs), l') /\
             at_ inp l' (snd (to_tab [] rs)) /\ (l_pos l <= l_pos l')%nat.
Proof.
  intros. unfold takeToTabOrNextLineOrComment. apply takeToTab_loop_spec; [assumption|].
  eapply at_fuel; eassumption.
Qed.

Lemma takeUntilSpace_loop_spec : forall fuel inp l rs acc, at_ inp l rs -> (length rs < fuel)%nat ->
  exists l', takeUntilSpace_loop fuel l acc = (acc ++ fst (until_space rs), l') /\
             at_ inp l' (snd (until_space rs)) /\ (l_pos l <= l_pos l')%nat.
Proof.
  induction fuel as [|f IH]; intros inp l rs acc A F; [lia|]. cbn [takeUntilSpace_loop].
  destruct rs as [|r rs].
  - destruct (next_eof _ _ A) as (l1 & E & _ & A1 & _ & P). rewrite E. cbn.
    exists (backup l1). rewrite app_nil_r. split; [reflexivity|]. split; [assumption|lia].
  - destruct (next_rune _ _ _ _ A) as (l1 & E & R & A1 & A2 & P & P'). rewrite E, eof_neq by assumption.
    cbn [until_space]. cbn in F. destruct (r =? c_space); cbn [fst snd].
    + exists (backup l1). rewrite app_nil_r. split; [reflexivity|]. split; [assumption|lia].
    + destruct (IH inp l1 rs (acc ++ [r]) A1) as (l' & E' & A' & P''); [lia|].
      exists l'. rewrite E', <- app_assoc. destruct (until_space rs) as [a b]. cbn [fst snd] in *.
      split; [reflexivity|]. split; [assumption|lia].
Qed.

Lemma takeUntilSpace_spec : forall inp l rs, at_ inp l rs ->
  exists l', takeUntilSpace l = (fst (until_space rs), l') /\
             at_ inp l' (snd (until_space rs)) /\ (l_pos l <= l_pos l')%nat.
Proof.
  intros. unfold takeUntilSpace.
  destruct (takeUntilSpace_loop_spec (fuel_of l) inp l rs [] H (at_fuel _ _ _ H)) as (l' & E & A).
  exists l'. auto.
Qed.

(** In the loop of takeUntilMoreThanOneSpace, when [previous] holds, the byte
    before the position is a space. *)
Lemma decode_space_first : forall inp pos rs, decode (skipn pos inp) = c_space :: rs ->
  decode_rune (skipn pos inp) = (c_space, 1%nat).
Proof.
  intros inp pos rs H. destruct (skipn pos inp) as [|b s] eqn:E; [discriminate|].
  rewrite decode_cons in H by discriminate. injection H as H _. unfold c_space in *.
  revert H. unfold decode_rune.
  destruct s as [|b1 [|b2 [|b3 q]]]; repeat destr_if; cbn [fst]; intro H;
    first [ rewrite H; reflexivity | exfalso; bounds; unfold RuneError in H; lia ].
Qed.

Definition after_space (inp : str) (l : lexer) : Prop :=
  (1 <= l_pos l)%nat /\ decode_rune (skipn (l_pos l - 1) inp) = (c_space, 1%nat).

Lemma takeUntilMore_loop_spec : forall fuel inp l rs acc (previous : bool) lo,
  at_ inp l rs -> (length rs < fuel)%nat -> (lo <= l_pos l)%nat ->
  (previous = true -> after_space inp l /\ (lo < l_pos l)%nat) ->
  exists l', takeUntilMore_loop fuel l acc previous = (fst (account_name acc previous rs), l') /\
             at_ inp l' (snd (account_name acc previous rs)) /\ (lo <= l_pos l')%nat.
Proof.
  induction fuel as [|f IH]; intros inp l rs acc previous lo A F LO PR; [lia|].
  cbn [takeUntilMore_loop]. destruct rs as [|r rs].
  - destruct (peek_eof _ _ A) as (l1 & E & A1 & P). rewrite E. cbn [Z.eqb orb account_name fst snd].
    replace (eof =? eof) with true by reflexivity. cbn [orb].
    exists l1. split; [reflexivity|]. split; [assumption|lia].
  - destruct (peek_rune _ _ _ _ A) as (l1 & E & R & A1 & P). rewrite E, eof_neq by assumption.
    cbn [orb account_name]. destruct (r =? c_tab); cbn [fst snd];
      [exists l1; split; [reflexivity|]; split; [assumption|lia]|].
    destruct (next_rune _ _ _ _ A1) as (l2 & E2 & _ & A2 & _ & P2 & _). cbn in F.
    destruct (r =? c_space) eqn:SP; cbn [andb].
    + apply Z.eqb_eq in SP. destruct previous; cbn [fst snd].
      * destruct (PR eq_refl) as [[P1 DS] LT].
        exists (backup l1). split; [reflexivity|].
        assert (l_width l1 = 1%nat) as W.
        { unfold peek in E. destruct (next l) as [r0 l0] eqn:N. injection E as -> <-. cbn.
          unfold next in N. destruct A as (EI & BI & DI). rewrite EI in N.
          destruct (Nat.leb_spec (length inp) (l_pos l)); [injection N as N1 N2; unfold eof in N1; lia|].
          rewrite SP in DI. rewrite (decode_space_first _ _ _ DI) in N. injection N as _ <-. reflexivity. }
        destruct A1 as (EI & BI & DI). unfold backup. split; cbn [l_pos l_input l_width]; [|lia].
        split; [assumption|]. cbn [l_pos]. rewrite W, P. split; [lia|].
        rewrite decode_cons.
        -- rewrite DS. cbn [fst snd]. f_equal. rewrite skipn_skipn.
           replace (l_pos l - 1 + 1)%nat with (l_pos l) by lia.
           replace (1 + (l_pos l - 1))%nat with (l_pos l) by lia. rewrite <- P. exact DI.
        -- intro HN. rewrite HN in DS. discriminate.
      * rewrite E2. apply IH; [assumption|lia|lia|]. intros _. split; [|lia]. split; [lia|].
        assert (l_pos l2 = l_pos l1 + 1)%nat as P3.
        { destruct A1 as (EI & BI & DI). rewrite SP in DI. unfold next in E2. rewrite EI in E2.
          destruct (Nat.leb_spec (length inp) (l_pos l1)); [injection E2 as N1 N2; unfold eof in N1; lia|].
          rewrite (decode_space_first _ _ _ DI) in E2. injection E2 as _ <-. reflexivity. }
        destruct A1 as (EI & BI & DI). rewrite SP in DI. rewrite P3.
        replace (l_pos l1 + 1 - 1)%nat with (l_pos l1) by lia. eapply decode_space_first; eassumption.
    + rewrite E2. apply IH; [assumption|lia|lia|]. discriminate.
Qed.

Lemma takeUntilMore_spec : forall inp l rs, at_ inp l rs ->
  exists l', takeUntilMoreThanOneSpace l = (fst (account_name [] false rs), l') /\
             at_ inp l' (snd (account_name [] false rs)) /\ (l_pos l <= l_pos l')%nat.
Proof.
  intros. unfold takeUntilMoreThanOneSpace. eapply takeUntilMore_loop_spec; eauto; try discriminate.
  eapply at_fuel; eassumption.
Qed.

Section WithUnicode.
Variable U : unicode.

Lemma lexCommodity_loop_spec : forall fuel inp l rs acc, at_ inp l rs -> (length rs < fuel)%nat ->
  exists l', lexCommodity_loop U fuel l acc = (acc ++ fst (commodity_name U rs), l') /\
             at_ inp l' (snd (commodity_name U rs)) /\ (l_pos l <= l_pos l')%nat.
Proof.
  induction fuel as [|f IH]; intros inp l rs acc A F; [lia|]. cbn [lexCommodity_loop].
  destruct rs as [|r rs].
  - destruct (next_eof _ _ A) as (l1 & E & A1 & _ & P & _). rewrite E. cbn.
    exists l1. rewrite app_nil_r. split; [reflexivity|]. split; [assumption|lia].
  - destruct (next_rune _ _ _ _ A) as (l1 & E & R & A1 & A2 & P & P'). rewrite E, eof_neq by assumption.
    cbn [commodity_name]. cbn in F.
    destruct (isNumber U r || (r =? c_minus) || (r =? c_plus)); cbn [orb fst snd];
      [exists (backup l1); rewrite app_nil_r; split; [reflexivity|]; split; [assumption|lia]|].
    destruct ((r =? c_space) || (r =? c_tab)) eqn:ST; cbn [orb fst snd];
      [exists (backup l1); rewrite app_nil_r; split; [reflexivity|]; split; [assumption|lia]|].
    destruct (IH inp l1 rs (acc ++ [r]) A1) as (l' & E' & A' & P''); [lia|].
    exists l'. rewrite E', <- app_assoc. destruct (commodity_name U rs) as [a b]. cbn [fst snd] in *.
    split; [reflexivity|]. split; [assumption|lia].
Qed.

Lemma lexCommodity_spec : forall inp l rs, at_ inp l rs ->
  exists l', lexCommodity U l = (fst (commodity_name U rs), l') /\
             at_ inp l' (snd (commodity_name U rs)) /\ (l_pos l <= l_pos l')%nat.
Proof.
  intros. unfold lexCommodity.
  destruct (lexCommodity_loop_spec (fuel_of l) inp l rs [] H (at_fuel _ _ _ H)) as (l' & E & A).
  exists l'. auto.
Qed.

(** What remains after an account name is nothing, a tab, or two spaces. *)
Lemma account_name_rest : forall rs acc previous,
  match snd (account_name acc previous rs) with
  | [] => True
  | r :: rs' => r = c_tab \/ (r = c_space /\ exists rs'', rs' = c_space :: rs'')
  end.
Proof.
  induction rs as [|r rs IH]; intros; cbn [account_name]; [exact I|].
  destruct (r =? c_tab) eqn:T; cbn [snd]; [left; now apply Z.eqb_eq|].
  destruct ((r =? c_space) && previous) eqn:Sp; cbn [snd]; [|apply IH].
  right. split; [reflexivity|]. apply andb_true_iff in Sp as [Sp _]. apply Z.eqb_eq in Sp as ->. eauto.
Qed.

Lemma space_width_nonneg : forall rs, 0 <= space_width rs.
Proof.
  induction rs as [|r rs IH]; cbn [space_width]; [lia|]. unfold TabWidth.
  destruct (isSpace r), (r =? c_tab), (r =? c_space); lia.
Qed.

Lemma account_rest_width : forall rs, snd (account_name [] false rs) <> [] ->
  2 <= space_width (snd (account_name [] false rs)).
Proof.
  intros rs N. pose proof (account_name_rest rs [] false) as H.
  destruct (snd (account_name [] false rs)) as [|r rs']; [congruence|].
  destruct H as [->|[-> [rs'' ->]]]; cbn [space_width].
  - pose proof (space_width_nonneg rs'). replace (isSpace c_tab) with true by reflexivity.
    rewrite Z.eqb_refl. unfold TabWidth. lia.
  - pose proof (space_width_nonneg rs''). replace (isSpace c_space) with true by reflexivity.
    rewrite Z.eqb_refl. replace (c_space =? c_tab) with false by reflexivity. lia.
Qed.

Lemma lexPosting_spec : forall inp l rs, at_ inp l rs -> lexPosting U l = posting_line U rs.
Proof.
  intros inp l rs A. unfold lexPosting, posting_line.
  destruct (consumeSpace_spec _ _ _ A) as (l1 & E1 & A1 & _). rewrite E1.
  destruct (drop_space rs) as [|r rs'].
  - destruct (next_eof _ _ A1) as (l2 & E2 & _). rewrite E2. reflexivity.
  - destruct (next_rune _ _ _ _ A1) as (l2 & E2 & R & A2 & A2' & _). rewrite E2.
    destruct (isCommentIndicator r).
    { destruct (takeToNextLine_spec _ _ _ A2) as (l3 & E3 & _). rewrite E3. reflexivity. }
    destruct (isLetter U r); [|reflexivity].
    destruct (takeUntilMore_spec _ _ _ A2') as (l3 & E3 & A3 & _). rewrite E3.
    pose proof (account_rest_width (r :: rs')) as W.
    destruct (account_name [] false (r :: rs')) as [account rs1]. cbn [fst snd] in *.
    destruct (consumeSpace_spec _ _ _ A3) as (l4 & E4 & A4 & _). rewrite E4.
    destruct rs1 as [|x rs1].
    + cbn [space_width]. cbn [Z.ltb Z.compare]. cbn [drop_space] in A4.
      destruct A4 as (EI & BI & DI). apply (proj1 (decode_nil_iff _)) in DI.
      apply (f_equal (@length Z)) in DI. rewrite skipn_length in DI. cbn [length] in DI. rewrite EI.
      destruct (Nat.ltb_spec 1 (length inp - l_pos l4)); [lia|reflexivity].
    + specialize (W ltac:(discriminate)).
      destruct (Z.ltb_spec (space_width (x :: rs1)) 2); [lia|].
      destruct (lexCommodity_spec _ _ _ A4) as (l5 & E5 & A5 & _). rewrite E5.
      destruct (commodity_name U (drop_space (x :: rs1))) as [commodity rs2]. cbn [fst snd] in *.
      destruct (consumeSpace_spec _ _ _ A5) as (l6 & E6 & A6 & _). rewrite E6.
      destruct (takeToTab_spec _ _ _ A6) as (l7 & E7 & _). rewrite E7. reflexivity.
Qed.

Lemma lexIncludeDirective_spec : forall hint inp l rs, at_ inp l rs ->
  lexIncludeDirective hint l = include_line hint rs.
Proof.
  intros hint inp l rs A. unfold lexIncludeDirective, include_line.
  destruct (takeUntilSpace_spec _ _ _ A) as (l1 & E1 & A1 & _). rewrite E1.
  destruct (until_space rs) as [directive rs1]. cbn [fst snd] in *.
  destruct (negb (str_eqb directive (lit "include"))); [reflexivity|].
  destruct (consumeSpace_spec _ _ _ A1) as (l2 & E2 & A2 & _). rewrite E2.
  destruct (space_width rs1 =? 0); [reflexivity|].
  destruct (takeToTab_spec _ _ _ A2) as (l3 & E3 & _). rewrite E3.
  destruct (fst (to_tab [] (drop_space rs1))); reflexivity.
Qed.

Lemma lexPeriod_spec : forall inp l rs, at_ inp l rs -> lexPeriodTransactionHeader l = period_line rs.
Proof.
  intros inp l rs A. unfold lexPeriodTransactionHeader, period_line.
  destruct (consumeSpace_spec _ _ _ A) as (l2 & E2 & A2 & _). rewrite E2.
  destruct (space_width rs =? 0); [reflexivity|].
  destruct (takeToTab_spec _ _ _ A2) as (l3 & E3 & _). rewrite E3. reflexivity.
Qed.

Lemma lexHeader_spec : forall inp l rs, at_ inp l rs -> lexTransactionHeader l = header_line rs.
Proof.
  intros inp l rs A. unfold lexTransactionHeader, header_line.
  destruct (takeUntilSpace_spec _ _ _ A) as (l1 & E1 & A1 & _). rewrite E1.
  destruct (until_space rs) as [date rs1]. cbn [fst snd] in *.
  destruct (consumeSpace_spec _ _ _ A1) as (l2 & E2 & A2 & _). rewrite E2.
  assert (forall (states : list (itemType * list Z)) l4 rs3, at_ inp l4 rs3 ->
    (let '(payee, l5) := takeToTabOrNextLineOrComment l4 in
     let '(comment, _) := takeToNextLine l5 in
     let commentItems := match comment with
                         | [] => []
                         | _ :: rest => [(transactionHeaderCommentItem, trimSpaceStart rest)]
                         end in
     ([(dateItem, date)] ++ states ++ [(payeeItem, payee)] ++ commentItems, None : option err)) =
    (let '(payee, rs4) := to_tab [] rs3 in
     let note := match trimSpaceStart rs4 with
                 | [] => []
                 | _ :: note => [(transactionHeaderCommentItem, trimSpaceStart note)]
                 end in
     ([(dateItem, date)] ++ states ++ [(payeeItem, payee)] ++ note, None))) as K.
  { intros states l4 rs3 A4. destruct (takeToTab_spec _ _ _ A4) as (l5 & E5 & A5 & _). rewrite E5.
    destruct (to_tab [] rs3) as [payee rs4]. cbn [fst snd] in *.
    destruct (takeToNextLine_spec _ _ _ A5) as (l6 & E6 & _). rewrite E6.
    destruct (trimSpaceStart rs4); reflexivity. }
  destruct (drop_space rs1) as [|r rs2].
  - destruct (next_eof _ _ A2) as (l3 & E3 & _ & A3 & _). rewrite E3.
    replace (eof =? c_bang) with false by reflexivity. replace (eof =? c_star) with false by reflexivity.
    cbn iota beta. apply K. assumption.
  - destruct (next_rune _ _ _ _ A2) as (l3 & E3 & _ & A3 & A3' & _). rewrite E3.
    destruct (consumeSpace_spec _ _ _ A3) as (l4 & E4 & A4 & _).
    destruct (r =? c_bang) eqn:B1; [|destruct (r =? c_star) eqn:B2]; cbn [orb].
    + apply Z.eqb_eq in B1 as ->. rewrite E4. cbn [snd]. apply K. assumption.
    + apply Z.eqb_eq in B2 as ->. rewrite E4. cbn [snd]. apply K. assumption.
    + apply K. assumption.
Qed.

(** The lexer computes [lex_runes]. *)
Theorem lexLine_spec : forall hint input, lexLine U hint input = lex_runes U hint (decode input).
Proof.
  intros hint input. unfold lexLine, lex_runes.
  destruct input as [|b input]; [reflexivity|]. set (inp := b :: input).
  assert (at_ inp (Lx inp 0 0) (decode inp)) as A by (repeat split; cbn; lia).
  destruct (decode inp) as [|r rs] eqn:D; [now apply (proj1 (decode_nil_iff _)) in D|].
  destruct (next_rune _ _ _ _ A) as (l & E & R & A1 & A2 & _). rewrite E.
  destruct (isCommentIndicator r); [reflexivity|].
  destruct (r =? c_i); [eapply lexIncludeDirective_spec; eassumption|].
  rewrite eof_neq by assumption.
  destruct (r =? c_tilde); [eapply lexPeriod_spec; eassumption|].
  destruct (isNumber U r); [eapply lexHeader_spec; eassumption|].
  destruct (r =? c_tab); cbn [orb]; [eapply lexPosting_spec; eassumption|].
  destruct (r =? c_space); cbn [andb]; [|reflexivity].
  destruct rs as [|r2 rs].
  - destruct (peek_eof _ _ A1) as (l2 & E2 & _). rewrite E2. reflexivity.
  - destruct (peek_rune _ _ _ _ A1) as (l2 & E2 & _ & A3 & _). rewrite E2.
    destruct (r2 =? c_space); [eapply lexPosting_spec; eassumption|reflexivity].
Qed.

End WithUnicode.
