(** * The scanning loops of the lexer end by themselves, within the line *)
From Verif Require Import Base BaseFacts Utf8 Utf8Facts Unicode Lexer LexSpec LexerFacts.

(** One more unit of fuel than one per remaining byte plus one changes nothing. *)
Lemma consumeSpace_more : forall fuel inp l rs count, at_ inp l rs -> (length rs < fuel)%nat ->
  consumeSpace_loop (S fuel) l count = consumeSpace_loop fuel l count.
Proof.
  induction fuel as [|f IH]; intros inp l rs acc A F; [lia|].
  destruct rs as [|r rs].
  - destruct (next_eof _ _ A) as (l1 & E & _). cbn [consumeSpace_loop]. rewrite E. reflexivity.
  - destruct (next_rune _ _ _ _ A) as (l1 & E & R & A1 & _). cbn in F.
    cbn [consumeSpace_loop]. rewrite E.
    destruct ((r =? eof) || negb (isSpace r)); [reflexivity|].
    apply (IH inp l1 rs); [assumption|lia].
Qed.

Lemma takeToNextLine_more : forall fuel inp l rs acc, at_ inp l rs -> (length rs < fuel)%nat ->
  takeToNextLine_loop (S fuel) l acc = takeToNextLine_loop fuel l acc.
Proof.
  induction fuel as [|f IH]; intros inp l rs acc A F; [lia|].
  destruct rs as [|r rs].
  - destruct (next_eof _ _ A) as (l1 & E & _). cbn [takeToNextLine_loop]. rewrite E. reflexivity.
  - destruct (next_rune _ _ _ _ A) as (l1 & E & R & A1 & _). cbn in F.
    cbn [takeToNextLine_loop]. rewrite E. destruct (r =? eof); [reflexivity|].
    apply (IH inp l1 rs); [assumption|lia].
Qed.

Lemma takeToTab_more : forall fuel inp l rs acc, at_ inp l rs -> (length rs < fuel)%nat ->
  takeToTab_loop (S fuel) l acc = takeToTab_loop fuel l acc.
Proof.
  induction fuel as [|f IH]; intros inp l rs acc A F; [lia|].
  destruct rs as [|r rs].
  - destruct (next_eof _ _ A) as (l1 & E & _). cbn [takeToTab_loop]. rewrite E. reflexivity.
  - destruct (next_rune _ _ _ _ A) as (l1 & E & R & A1 & _). cbn in F.
    cbn [takeToTab_loop]. rewrite E. destruct (r =? eof); [reflexivity|].
    destruct (isCommentIndicator r); [reflexivity|]. destruct (r =? c_tab); [reflexivity|].
    destruct (r =? c_space).
    + destruct rs as [|r2 rs].
      * destruct (peek_eof _ _ A1) as (l2 & E2 & A2 & _). rewrite E2.
        destruct (eof =? c_space); [reflexivity|]. apply (IH inp l2 []); [assumption|cbn; lia].
      * destruct (peek_rune _ _ _ _ A1) as (l2 & E2 & R2 & A2 & _). rewrite E2.
        destruct (r2 =? c_space); [reflexivity|]. apply (IH inp l2 (r2 :: rs)); [assumption|lia].
    + apply (IH inp l1 rs); [assumption|lia].
Qed.

Lemma takeUntilSpace_more : forall fuel inp l rs acc, at_ inp l rs -> (length rs < fuel)%nat ->
  takeUntilSpace_loop (S fuel) l acc = takeUntilSpace_loop fuel l acc.
Proof.
  induction fuel as [|f IH]; intros inp l rs acc A F; [lia|].
  destruct rs as [|r rs].
  - destruct (next_eof _ _ A) as (l1 & E & _). cbn [takeUntilSpace_loop]. rewrite E. reflexivity.
  - destruct (next_rune _ _ _ _ A) as (l1 & E & R & A1 & _). cbn in F.
    cbn [takeUntilSpace_loop]. rewrite E. destruct (r =? eof); [reflexivity|].
    destruct (r =? c_space); [reflexivity|]. apply (IH inp l1 rs); [assumption|lia].
Qed.

Lemma takeUntilMore_more : forall fuel inp l rs acc previous, at_ inp l rs -> (length rs < fuel)%nat ->
  takeUntilMore_loop (S fuel) l acc previous = takeUntilMore_loop fuel l acc previous.
Proof.
  induction fuel as [|f IH]; intros inp l rs acc previous A F; [lia|].
  destruct rs as [|r rs].
  - destruct (peek_eof _ _ A) as (l1 & E & _). cbn [takeUntilMore_loop]. rewrite E. reflexivity.
  - destruct (peek_rune _ _ _ _ A) as (l1 & E & R & A1 & _). cbn in F.
    destruct (next_rune _ _ _ _ A1) as (l2 & E2 & _ & A2 & _).
    cbn [takeUntilMore_loop]. rewrite E, E2. destruct ((r =? eof) || (r =? c_tab)); [reflexivity|].
    destruct (r =? c_space); [destruct previous; [reflexivity|]|].
    + apply (IH inp l2 rs (acc ++ [r]) true); [assumption|lia].
    + apply (IH inp l2 rs (acc ++ [r]) false); [assumption|lia].
Qed.

Lemma lexCommodity_more : forall U fuel inp l rs acc, at_ inp l rs -> (length rs < fuel)%nat ->
  lexCommodity_loop U (S fuel) l acc = lexCommodity_loop U fuel l acc.
Proof.
  intro U. induction fuel as [|f IH]; intros inp l rs acc A F; [lia|].
  destruct rs as [|r rs].
  - destruct (next_eof _ _ A) as (l1 & E & _). cbn [lexCommodity_loop]. rewrite E. reflexivity.
  - destruct (next_rune _ _ _ _ A) as (l1 & E & R & A1 & _). cbn in F.
    cbn [lexCommodity_loop]. rewrite E. destruct (r =? eof); [reflexivity|].
    destruct (isNumber U r || (r =? c_minus) || (r =? c_plus)); [reflexivity|].
    destruct ((r =? c_space) || (r =? c_tab)); [reflexivity|]. apply (IH inp l1 rs); [assumption|lia].
Qed.

(** A scan started anywhere in the line needs at most one iteration per
    remaining byte plus one, keeps the line, and ends at a position of the line
    not before its start. *)
Definition scans {A} (run : nat -> lexer -> A * lexer) : Prop :=
  forall l, (l_pos l <= length (l_input l))%nat ->
    let n := S (length (l_input l) - l_pos l) in
    (forall fuel, (n <= fuel)%nat -> run fuel l = run n l) /\
    let l' := snd (run n l) in
    l_input l' = l_input l /\ (l_pos l <= l_pos l' <= length (l_input l))%nat.

Lemma scans_intro : forall A (run : nat -> lexer -> A * lexer),
  (forall fuel inp l rs, at_ inp l rs -> (length rs < fuel)%nat -> run (S fuel) l = run fuel l) ->
  (forall inp l rs, at_ inp l rs -> exists l' rs', snd (run (fuel_of l) l) = l' /\ at_ inp l' rs' /\ (l_pos l <= l_pos l')%nat) ->
  scans run.
Proof.
  intros A run M R l B n. assert (at_ (l_input l) l (decode (skipn (l_pos l) (l_input l)))) as AT by (repeat split; assumption).
  split.
  - intros fuel L. induction L as [|fuel L IH]; [reflexivity|].
    rewrite (M fuel _ _ _ AT); [exact IH|]. pose proof (at_fuel _ _ _ AT) as FU. unfold fuel_of in FU. fold n in FU. lia.
  - destruct (R _ _ _ AT) as (l' & rs' & E & (I & P & _) & Q). unfold fuel_of in E. fold n in E. rewrite E.
    cbn zeta. split; [assumption|lia].
Qed.

Lemma all_scans : forall U,
  scans (fun n l => consumeSpace_loop n l 0) /\ scans (fun n l => takeToNextLine_loop n l []) /\
  scans (fun n l => takeToTab_loop n l []) /\ scans (fun n l => takeUntilSpace_loop n l []) /\
  scans (fun n l => takeUntilMore_loop n l [] false) /\ scans (fun n l => lexCommodity_loop U n l []).
Proof.
  intro U. repeat apply conj; apply scans_intro; intros.
  - eapply consumeSpace_more; eassumption.
  - destruct (consumeSpace_spec _ _ _ H) as (l' & E & A & P). unfold consumeSpace in E. rewrite E. eauto.
  - eapply takeToNextLine_more; eassumption.
  - destruct (takeToNextLine_spec _ _ _ H) as (l' & E & A & P). unfold takeToNextLine in E. rewrite E. eauto.
  - eapply takeToTab_more; eassumption.
  - destruct (takeToTab_spec _ _ _ H) as (l' & E & A & P). unfold takeToTabOrNextLineOrComment in E. rewrite E. eauto.
  - eapply takeUntilSpace_more; eassumption.
  - destruct (takeUntilSpace_spec _ _ _ H) as (l' & E & A & P). unfold takeUntilSpace in E. rewrite E. eauto.
  - eapply takeUntilMore_more; eassumption.
  - destruct (takeUntilMore_spec _ _ _ H) as (l' & E & A & P). unfold takeUntilMoreThanOneSpace in E. rewrite E. eauto.
  - eapply lexCommodity_more; eassumption.
  - destruct (lexCommodity_spec U _ _ _ H) as (l' & E & A & P). unfold lexCommodity in E. rewrite E. eauto.
Qed.

(** Stepping back after [next] returns to where it started. *)
Lemma step_back : forall l, (l_pos l <= length (l_input l))%nat ->
  let l1 := snd (next l) in
  l_input l1 = l_input l /\ (l_pos l <= l_pos l1 <= length (l_input l))%nat /\
  (l_width l1 <= l_pos l1)%nat /\ l_pos (backup l1) = l_pos l.
Proof.
  intros l B. assert (at_ (l_input l) l (decode (skipn (l_pos l) (l_input l)))) as AT by (repeat split; assumption).
  destruct (decode (skipn (l_pos l) (l_input l))) as [|r rs].
  - destruct (next_eof _ _ AT) as (l1 & E & (I & P & _) & _ & P1 & P2). rewrite E. cbn [snd].
    repeat split; try assumption; try lia. unfold next in E.
    destruct (Nat.leb_spec (length (l_input l)) (l_pos l)).
    + injection E as <-. cbn. lia.
    + pose proof (decode_rune_nonneg (skipn (l_pos l) (l_input l))).
      destruct (decode_rune (skipn (l_pos l) (l_input l))). injection E as E _. cbn in *. unfold eof in E. lia.
  - destruct (next_rune _ _ _ _ AT) as (l1 & E & R & (I & P & _) & _ & P1 & P2). rewrite E. cbn [snd].
    repeat split; try assumption; try lia. unfold next in E.
    destruct (Nat.leb_spec (length (l_input l)) (l_pos l)).
    + injection E as _ <-. cbn. lia.
    + destruct (decode_rune (skipn (l_pos l) (l_input l))). injection E as _ <-. cbn. lia.
Qed.
