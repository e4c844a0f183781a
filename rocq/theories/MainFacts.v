(** * Facts about command lines *)
From Verif Require Import Base BaseFacts Utf8 Unicode GoTime Strconv Journal Lexer Parser ParserFacts Account Reporting Budget Cmd
  Spec TextSpec CmdSpec CmdFacts FlatSpec InputFacts Main MainSpec.

Lemma by_name_in : forall fl f w c b, documented f w c b -> In f fl -> by_name fl w = Some f.
Proof.
  intros fl f w c b D. induction fl as [|g fl IH]; [intros []|]. intros [->|I]; unfold by_name; cbn [find].
  - destruct D; reflexivity.
  - destruct (str_eqb (flag_name g) w) eqn:Q; [|exact (IH I)]. f_equal. destruct D; destruct g; cbn in Q; congruence.
Qed.

Lemma by_short_in : forall fl f w c b, documented f w c b -> In f fl -> by_short fl c = Some f.
Proof.
  intros fl f w c b D. induction fl as [|g fl IH]; [intros []|]. intros [->|I]; unfold by_short; cbn [find].
  - destruct D; reflexivity.
  - destruct (flag_short g =? c) eqn:Q; [|exact (IH I)]. f_equal. destruct D; destruct g; cbn in Q; congruence.
Qed.

Lemma doc_bool : forall f w c b, documented f w c b -> flag_bool f = negb b.
Proof. intros f w c b D. destruct D; reflexivity. Qed.

Lemma spelled_parse : forall fl f v l, spelled f v l -> In f fl -> forall rest st,
  parse_args fl (l ++ rest) st = match set_flag f v st with Some st' => parse_args fl rest st' | None => None end.
Proof.
  intros fl f v l Sp I rest st. destruct Sp as [f w c v D|f w c b v D|f w c D|f w c v D|f w c x v D X|f w c b x v D|f w c D].
  - pose proof (by_name_in fl f w c true D I) as N. pose proof (doc_bool _ _ _ _ D) as B.
    inversion D; subst; cbn [lit app]; cbn in N |- *; rewrite N; cbn; reflexivity.
  - pose proof (by_name_in fl f w c b D I) as N.
    inversion D; subst; cbn in N |- *; rewrite N; destruct (set_flag _ v st); reflexivity.
  - pose proof (by_name_in fl f w c false D I) as N.
    inversion D; subst; cbn in N |- *; rewrite N; cbn; destruct st as [[] ?]; reflexivity.
  - pose proof (by_short_in fl f w c true D I) as N.
    inversion D; subst; cbn in N |- *; rewrite N; cbn; reflexivity.
  - pose proof (by_short_in fl f w c true D I) as N. apply Z.eqb_neq in X. change (ch "=") with 61 in X.
    inversion D; subst; cbn in N |- *; rewrite N; unfold c_eq; rewrite X, andb_false_r; cbn; destruct st as [[] ?]; reflexivity.
  - pose proof (by_short_in fl f w c b D I) as N.
    inversion D; subst; cbn in N |- *; rewrite N; cbn; destruct (set_flag _ (x :: v) st) eqn:Q; cbn in Q; rewrite ?Q; reflexivity.
  - pose proof (by_short_in fl f w c false D I) as N.
    inversion D; subst; cbn in N |- *; rewrite N; cbn; destruct st as [[] ?]; reflexivity.
Qed.

(** ** What a line of arguments does *)
Definition holds (its : list item) (st : fstate) : Prop := meant its (fs_opts st) (fs_help st).

Lemma holds_init : holds [] fs_init.
Proof. constructor; reflexivity. Qed.

Lemma last_given_app : forall f its i, last_given f (its ++ [i]) =
  match i with Given g v => if flag_dec f g then Some v else last_given f its | Word _ => last_given f its end.
Proof. intros f its i. unfold last_given. rewrite fold_left_app. reflexivity. Qed.

Lemma words_app : forall a b, words (a ++ b) = words a ++ words b.
Proof. intros. apply flat_map_app. Qed.

Lemma truth_bool : forall v b, truth v b -> parse_bool v = Some b.
Proof. intros v [|] T; cbn in T; repeat (destruct T as [<-|T]; [reflexivity|]); destruct T. Qed.
Lemma truth_fun : forall v b b', truth v b -> truth v b' -> b = b'.
Proof. intros v b b' T T'. apply truth_bool in T, T'. congruence. Qed.

Lemma set_holds : forall its st f v, holds its st -> sensible f v ->
  exists st', set_flag f v st = Some st' /\ holds (its ++ [Given f v]) st'.
Proof.
  intros its [[file begin end_ current args flatten collapse zero] help] f v [] S. cbn [fs_opts fs_help o_file o_begin o_end o_current o_args o_flatten o_collapse o_show_zero] in *.
  assert (W : words (its ++ [Given f v]) = words its) by (rewrite words_app; cbn; apply app_nil_r).
  unfold value, switch in *.
  assert (K : (flag_bool f = true -> exists b, truth v b)).
  { destruct S as [(w & c & D)|S]; [|auto]. inversion D; subst; discriminate. }
  destruct f; cbn [set_flag];
    try (eexists; split; [reflexivity|]; constructor; unfold value, switch; cbn [fs_opts fs_help o_file o_begin o_end o_current o_args o_flatten o_collapse o_show_zero];
      rewrite ?last_given_app, ?W; cbn [flag_dec]; auto; fail);
    (destruct K as [b T]; [reflexivity|]; rewrite (truth_bool _ _ T);
      eexists; split; [reflexivity|]; constructor; unfold value, switch; cbn [fs_opts fs_help o_file o_begin o_end o_current o_args o_flatten o_collapse o_show_zero];
      rewrite ?last_given_app, ?W; cbn; auto).
Qed.

Lemma add_holds : forall l its st, holds its st -> holds (its ++ map Word l) (add_args l st).
Proof.
  intros l its [[file begin end_ current args flatten collapse zero] help] [].
  assert (G : forall f, last_given f (its ++ map Word l) = last_given f its).
  { intro f. unfold last_given. rewrite fold_left_app. set (x := fold_left _ its None). clearbody x. clear -x.
    induction l as [|w l IH]; [reflexivity|exact IH]. }
  assert (W : words (map Word l) = l) by (clear; induction l as [|w l IH]; [reflexivity|]; cbn [map]; change (words (Word w :: map Word l)) with (w :: words (map Word l)); now rewrite IH).
  unfold value, switch in *. cbn [fs_opts fs_help o_file o_begin o_end o_current o_args o_flatten o_collapse o_show_zero] in *.
  constructor; unfold value, switch; cbn [add_args fs_opts fs_help o_file o_begin o_end o_current o_args o_flatten o_collapse o_show_zero]; rewrite ?G; try assumption.
  rewrite words_app, W. congruence.
Qed.

Lemma group_parse : forall fl fs letters, Forall2 a_switch fs letters -> Forall (fun f => In f fl) fs ->
  forall its st, holds its st -> exists st', parse_short fl letters st = FDone st' /\ holds (its ++ map on fs) st'.
Proof.
  intros fl fs letters F2. induction F2 as [|f c fs letters [w D] F2 IH]; intros In_ its st H.
  - exists st. cbn. rewrite app_nil_r. auto.
  - inversion In_ as [|? ? I In']; subst. pose proof (by_short_in fl f w c false D I) as N. pose proof (doc_bool _ _ _ _ D) as B.
    destruct (set_holds its st f (lit "true") H) as (st1 & S1 & H1); [right; exists true; cbn; tauto|].
    destruct (IH In' _ _ H1) as (st2 & S2 & H2). exists st2. rewrite <- app_assoc in H2. split; [|exact H2].
    cbn [parse_short]. assert (P : has_prefix (lit "test.") (c :: letters) = false) by (clear -D; inversion D; subst; reflexivity).
    rewrite P, N. assert (Q : (2 <? length (c :: letters))%nat && (hd 0 letters =? c_eq) = false).
    { destruct F2 as [|g c' fs letters [w' D'] F2]; [reflexivity|]. cbn [hd]. clear -D'; inversion D'; subst; apply andb_false_r. }
    rewrite Q, B. cbn [negb]. change (lit "true") with (lit "true") in S1. rewrite S1. exact S2.
Qed.

Lemma open_parse : forall fl (ok : flag -> Prop) its l, open_line ok its l -> (forall f, ok f -> In f fl) ->
  forall its0 st, holds its0 st -> exists st', holds (its0 ++ its) st' /\ forall rest, parse_args fl (l ++ rest) st = parse_args fl rest st'.
Proof.
  intros fl ok its l Ln Ok. induction Ln as [|f v l its rest A Se Sp Ln IH|fs letters its rest Ne A F2 Ln IH|s its rest P Ln IH]; intros its0 st H.
  - exists st. rewrite app_nil_r. auto.
  - destruct (set_holds its0 st f v H Se) as (st1 & S1 & H1).
    destruct (IH _ _ H1) as (st2 & H2 & S2). exists st2. rewrite <- app_assoc in H2. split; [exact H2|]. intro r.
    rewrite <- app_assoc, (spelled_parse fl f v l Sp (Ok f A)), S1. apply S2.
  - assert (A' : Forall (fun f => In f fl) fs) by (eapply Forall_impl; [|exact A]; exact Ok).
    destruct (group_parse fl fs letters F2 A' its0 st H) as (st1 & S1 & H1).
    destruct (IH _ _ H1) as (st2 & H2 & S2). exists st2. rewrite <- app_assoc in H2. split; [exact H2|]. intro r.
    destruct F2 as [|f c fs letters [w D] F2]; [congruence|]. cbn [app parse_args]. change (ch "-") with 45.
    change (negb (45 =? c_minus_)) with false. cbn iota.
    assert (C : (c =? c_minus_) = false) by (clear -D; inversion D; subst; reflexivity). rewrite C. cbn [andb]. rewrite S1. apply S2.
  - pose proof (add_holds [s] its0 st H) as H1. destruct (IH _ _ H1) as (st2 & H2 & S2). rewrite <- app_assoc in H2.
    exists st2. split; [exact H2|]. intro r. destruct s as [|x [|y s]]; cbn [app parse_args]; try apply S2.
    destruct P as [P|[P|[_ P]]]; [discriminate|discriminate|]. cbn [hd] in P. apply Z.eqb_neq in P. change (ch "-") with c_minus_ in P.
    rewrite P. apply S2.
Qed.

Lemma line_parse : forall fl (ok : flag -> Prop) its l, line ok its l -> (forall f, ok f -> In f fl) ->
  forall its0 st, holds its0 st -> exists st', parse_args fl l st = Some st' /\ holds (its0 ++ its) st'.
Proof.
  intros fl ok its l [its' l' Ln|its' l' rest Ln] Ok its0 st H; destruct (open_parse fl ok _ _ Ln Ok its0 st H) as (st1 & H1 & S1).
  - exists st1. rewrite <- (app_nil_r l'), S1. auto.
  - exists (add_args rest st1). rewrite S1. split; [reflexivity|]. rewrite app_assoc. now apply add_holds.
Qed.

Lemma value_fun : forall its f v v', value its f v -> value its f v' -> v = v'.
Proof. unfold value. congruence. Qed.
Lemma switch_fun : forall its f b b', switch its f b -> switch its f b' -> b = b'.
Proof. unfold switch. intros its f b b'. destruct (last_given f its); [apply truth_fun|congruence]. Qed.

Lemma meant_fun : forall its O h O' h', meant its O h -> meant its O' h' -> O = O' /\ h = h'.
Proof.
  intros its [f b e c a fl co z] h [f' b' e' c' a' fl' co' z'] h' [] [].
  cbn [o_file o_begin o_end o_current o_args o_flatten o_collapse o_show_zero] in *.
  split; [f_equal|]; solve [eapply value_fun; eassumption|eapply switch_fun; eassumption|congruence].
Qed.

(** ** Finding the command *)
Lemma spelled_lead : forall f v l, for_all f -> spelled f v l -> forall rest, rest <> [] ->
  strip_flags (l ++ rest) = strip_flags rest.
Proof.
  intros f v l A Sp rest R. destruct rest as [|r rest]; [congruence|].
  destruct Sp as [f w c v D|f w c b v D|f w c D|f w c v D|f w c x v D X|f w c b x v D|f w c D];
    destruct A as [->|[->|[->| ->]]]; inversion D; subst; try reflexivity;
    cbn [app strip_flags]; unfold takes_next; cbn; rewrite ?orb_true_r; try reflexivity;
    rewrite ?andb_false_r; try reflexivity; destruct (existsb _ v); rewrite ?andb_false_r; reflexivity.
Qed.

Lemma leading_strip : forall its l, leading its l -> forall rest, rest <> [] -> strip_flags (l ++ rest) = strip_flags rest.
Proof.
  intros its l Ld. induction Ld as [|f v l its rest A Se Sp Ld IH]; intros r R; [reflexivity|].
  rewrite <- app_assoc. rewrite (spelled_lead f v l A Sp); [apply IH; exact R|]. destruct rest; [exact R|discriminate].
Qed.

Lemma leading_nothing : forall its l, leading its l -> strip_flags l = [].
Proof.
  intros its l Ld. induction Ld as [|f v l its rest A Se Sp Ld IH]; [reflexivity|].
  destruct rest as [|r rest]; [|rewrite (spelled_lead f v l A Sp) by discriminate; exact IH].
  clear -A Sp. destruct Sp as [f w c v D|f w c b v D|f w c D|f w c v D|f w c x v D X|f w c b x v D|f w c D];
    destruct A as [->|[->|[->| ->]]]; inversion D; subst; try reflexivity;
    cbn [app strip_flags]; unfold takes_next; cbn; rewrite ?orb_true_r; try reflexivity;
    rewrite ?andb_false_r; try reflexivity; destruct (existsb _ v); rewrite ?andb_false_r; reflexivity.
Qed.

Lemma leading_open : forall (ok : flag -> Prop) its l its2 l2, (forall f, for_all f -> ok f) ->
  leading its l -> open_line ok its2 l2 -> open_line ok (its ++ its2) (l ++ l2).
Proof.
  intros ok its l its2 l2 Ok Ld Ln. induction Ld as [|f v l its rest A Se Sp Ld IH]; [exact Ln|].
  rewrite <- app_assoc. cbn [app]. constructor; auto.
Qed.
Lemma leading_line : forall (ok : flag -> Prop) its l its2 l2, (forall f, for_all f -> ok f) ->
  leading its l -> line ok its2 l2 -> line ok (its ++ its2) (l ++ l2).
Proof.
  intros ok its l its2 l2 Ok Ld [its' l' Ln|its' l' rest Ln].
  - constructor. apply leading_open; assumption.
  - rewrite !app_assoc. apply LineDashes. apply leading_open; assumption.
Qed.

Lemma minus_first_app : forall x a b, ~ In x a -> minus_first x (a ++ x :: b) = a ++ b.
Proof.
  intros x. induction a as [|y a IH]; intros b N; cbn.
  - assert (str_eqb x x = true) as -> by (apply str_eqb_eq; reflexivity). reflexivity.
  - destruct (str_eqb x y) eqn:Q; [apply str_eqb_eq in Q; subst; cbn in N; tauto|]. rewrite IH; [reflexivity|]. cbn in N; tauto.
Qed.

Lemma allowed_in : forall c f, allowed c f -> In f (cmd_flags c).
Proof.
  intros c f [[->|[->|[->| ->]]]|[->|[[->| ->] [->|[->| ->]]]]]; try destruct c; cbn; tauto.
Qed.

Lemma called_found : forall c name, called c name -> find_next name = Some (TCmd c) /\
  forall rest, strip_flags (name :: rest) = name :: strip_flags rest.
Proof.
  intros c name [->|[I N]].
  - destruct c; split; reflexivity.
  - destruct c; cbn in I; try congruence; repeat (destruct I as [<-|I]; [split; reflexivity|]); destruct I.
Qed.

(** ** Command lines that are refused *)
Lemma set_switch : forall f w c st, documented f w c false -> exists st', set_flag f (lit "true") st = Some st'.
Proof. intros f w c [[] help] D. inversion D; subst; eexists; reflexivity. Qed.

Lemma switches_pass : forall fl (ok : flag -> Prop) fs letters rest (P : flag_result -> Prop),
  Forall ok fs -> (forall f, ok f -> In f fl) -> Forall2 a_switch fs letters -> hd 0 rest <> ch "=" ->
  (forall st, P (parse_short fl rest st)) -> forall st, P (parse_short fl (letters ++ rest) st).
Proof.
  intros fl ok fs letters rest P A Ok F2 R H. induction F2 as [|f c fs letters [w D] F2 IH]; intro st; [apply H|].
  inversion A as [|? ? A1 A2]; subst. cbn [app parse_short].
  assert (Q : has_prefix (lit "test.") (c :: letters ++ rest) = false) by (clear -D; inversion D; subst; reflexivity). rewrite Q.
  rewrite (by_short_in fl f w c false D (Ok f A1)), (doc_bool _ _ _ _ D). cbn [negb].
  assert (X : (hd 0 (letters ++ rest) =? c_eq) = false).
  { apply Z.eqb_neq. destruct F2 as [|g c' fs letters [w' D'] F2]; [exact R|]. cbn. clear -D'. inversion D'; subst; discriminate. }
  rewrite X, andb_false_r. destruct (set_switch f w c st D) as [st1 S1]. rewrite S1. apply IH. exact A2.
Qed.

Lemma index_app : forall c w t n, ~ In c w -> index_of c (w ++ t) n = index_of c t (n + length w).
Proof.
  intros c. induction w as [|x w IH]; intros t n N; cbn [app length index_of]; [now rewrite Nat.add_0_r|].
  destruct (x =? c) eqn:Q; [apply Z.eqb_eq in Q; subst; cbn in N; tauto|].
  rewrite IH; [f_equal; lia|]. cbn in N. tauto.
Qed.

Lemma by_name_doc : forall fl n f, by_name fl n = Some f -> In f fl /\ exists c b, documented f n c b.
Proof.
  intros fl n f H. apply find_some in H as [I Q]. apply str_eqb_eq in Q. subst. split; [exact I|].
  destruct f; do 2 eexists; constructor.
Qed.
Lemma by_short_doc : forall fl c f, by_short fl c = Some f -> In f fl /\ exists n b, documented f n c b.
Proof.
  intros fl c f H. apply find_some in H as [I Q]. apply Z.eqb_eq in Q. subst. split; [exact I|].
  destruct f; do 2 eexists; constructor.
Qed.

Lemma mem_in : forall s l, mem s l = true <-> In s l.
Proof.
  intros s l. unfold mem. rewrite existsb_exists. split.
  - intros (x & I & Q). apply str_eqb_eq in Q. now subst.
  - intro I. exists s. split; [exact I|]. now apply str_eqb_eq.
Qed.
Lemma truth_parse : forall v b, parse_bool v = Some b -> truth v b.
Proof.
  intros v b. unfold parse_bool. destruct (mem v _) eqn:Q.
  - apply mem_in in Q. intros [= <-]. cbn in *. tauto.
  - clear Q. destruct (mem v _) eqn:Q; [|discriminate]. apply mem_in in Q. intros [= <-]. cbn in *. tauto.
Qed.

Lemma set_value : forall f w c v st, documented f w c false -> (forall b, ~ truth v b) -> set_flag f v st = None.
Proof.
  intros f w c v [[] help] D N. assert (P : parse_bool v = None).
  { destruct (parse_bool v) as [b|] eqn:Q; [|reflexivity]. apply truth_parse in Q. destruct (N _ Q). }
  inversion D; subst; cbn; rewrite P; reflexivity.
Qed.

Lemma doc_no_eq : forall f w c b, documented f w c b -> ~ In (ch "=") w /\ w <> [] /\ hd 0 w <> c_minus_ /\ hd 0 w <> c_eq.
Proof.
  intros f w c b D. inversion D; subst; (split; [|repeat split; discriminate]);
    intro I; cbn in I; repeat (destruct I as [I|I]; [discriminate|]); exact I.
Qed.

Lemma bad_parse : forall fl (ok : flag -> Prop) l, (forall f, ok f <-> In f fl) -> bad ok l -> forall st, parse_args fl l st = None.
Proof.
  intros fl ok l Ok B. destruct B as [w tail rest Ne Eq Un T|fs letters c more rest A F2 Un Ce Cm Te|f w c A D|fs letters f w c A F2 A' D|f w c v rest A D V]; intro st.
  - change (lit "--" ++ w ++ tail) with (45 :: 45 :: w ++ tail). cbn [parse_args].
    change (negb (45 =? c_minus_)) with false. change (45 =? c_minus_) with true. cbn iota.
    destruct (w ++ tail) as [|x s] eqn:S; [congruence|]. cbn [is_nil andb].
    assert (P : parse_long fl (x :: s) st = FBad); [|now rewrite P].
    unfold parse_long. destruct ((x =? c_minus_) || (x =? c_eq)) eqn:X; [reflexivity|]. rewrite <- S.
    assert (Nm : by_name fl w = None).
    { destruct (by_name fl w) as [f|] eqn:Q; [|reflexivity]. apply by_name_doc in Q as (I & c & b & D). destruct (Un f c b D). now apply Ok. }
    rewrite index_app by exact Eq. cbn [plus]. destruct T as [->|T].
    + cbn [index_of]. rewrite app_nil_r, Nm. reflexivity.
    + destruct tail as [|y tail]; [discriminate T|]. cbn [hd] in T. subst y. cbn [index_of]. change (ch "=" =? c_eq) with true. cbn iota.
      rewrite firstn_app, Nat.sub_diag, firstn_all, app_nil_r, Nm. reflexivity.
  - assert (P : parse_short fl (letters ++ c :: more) st = FBad).
    { apply (switches_pass fl ok fs letters (c :: more) (fun r => r = FBad) A (fun f => proj1 (Ok f)) F2 Ce). intro st'. cbn [parse_short].
      destruct (has_prefix (lit "test.") (c :: more)) eqn:H.
      - exfalso. revert H Te. generalize (c :: more). clear. intros s H N.
        assert (K : forall p s, has_prefix p s = true -> exists r, s = p ++ r).
        { clear. induction p as [|a p IH]; intros s H; [exists s; reflexivity|]. destruct s as [|b s]; [discriminate|]. cbn in H.
          apply andb_prop in H as [H1 H2]. apply Z.eqb_eq in H1. subst. destruct (IH _ H2) as [r ->]. exists r. reflexivity. }
        destruct (K _ _ H) as [r R]. exact (N r R).
      - destruct (by_short fl c) as [f|] eqn:Q; [|reflexivity]. apply by_short_doc in Q as (I & n & b & D). destruct (Un f n b D). now apply Ok. }
    cbn [app parse_args]. change (ch "-") with 45. destruct (letters ++ c :: more) as [|y s] eqn:S; [destruct letters; discriminate|].
    change (negb (45 =? c_minus_)) with false. cbn iota.
    assert (Y : (y =? c_minus_) = false).
    { apply Z.eqb_neq. destruct F2 as [|g c' fs letters [w' D'] F2]; cbn in S; inversion S; subst; [exact Cm|]. clear -D'; inversion D'; subst; discriminate. }
    rewrite Y. cbn [andb]. rewrite P. reflexivity.
  - pose proof (by_name_in fl f w c true D (proj1 (Ok f) A)) as N. inversion D; subst; cbn in N |- *; rewrite N; reflexivity.
  - assert (P : exists st', parse_short fl (letters ++ [c]) st = FNext f st').
    { apply (switches_pass fl ok fs letters [c] (fun r => exists st', r = FNext f st') A (fun f => proj1 (Ok f)) F2).
      - cbn [hd]. clear -D; inversion D; subst; discriminate.
      - intro st'. pose proof (by_short_in fl f w c true D (proj1 (Ok f) A')) as N. exists st'. inversion D; subst; cbn in N |- *; rewrite N; reflexivity. }
    destruct P as [st' P]. cbn [parse_args]. change (ch "-") with 45. destruct (letters ++ [c]) as [|y s] eqn:S; [destruct letters; discriminate|].
    change (negb (45 =? c_minus_)) with false. cbn iota.
    assert (Y : (y =? c_minus_) = false).
    { apply Z.eqb_neq. destruct F2 as [|g c' fs letters [w' D'] F2]; cbn in S; inversion S; subst; [clear -D; inversion D; subst; discriminate|]. clear -D'; inversion D'; subst; discriminate. }
    rewrite Y. cbn [andb]. rewrite P. reflexivity.
  - pose proof (by_name_in fl f w c false D (proj1 (Ok f) A)) as N. pose proof (set_value f w c v st D V) as Sv.
    inversion D; subst; cbn in N |- *; rewrite N; cbn in Sv |- *; rewrite Sv; reflexivity.
Qed.

Lemma allowed_iff : forall c f, allowed c f <-> In f (cmd_flags c).
Proof.
  intros c f. split; [apply allowed_in|]. unfold allowed, for_all. intro I.
  destruct c; cbn in I; repeat (destruct I as [<-|I]; [tauto|]); destruct I.
Qed.

(** ** How commands end *)
Definition calm (r : status) : Prop := r = SOk \/ r = SPanic.

Section Ends.
Variable E : env.
Variable O : opts.
Hypothesis C : sane_clock E.
Hypothesis Or : orders E.

Lemma checked_calm : forall D fs k ph,
  (forall (s : hstate D) n t ps p s' r, k s n t ps p = (s', r) -> calm r /\ h_n s' = h_n s) ->
  (forall (s : hstate D) pt p s' r, deliver None ph s (EPer pt p) = (s', r) -> calm r /\ h_n s' = h_n s) ->
  forall evs s, flags_ok E O (txns (h_n s) evs) -> calm (snd (deliver_all (Some (checked E O fs k)) ph s evs)).
Proof.
  intros D fs k ph K P. induction evs as [|[t p|pt p] evs IH]; intros s F; cbn [deliver_all]; [left; reflexivity| |].
  - cbn [deliver]. cbn [txns] in F. inversion F as [|? ? G F']; subst. cbn in G.
    destruct (checked_cases E O C Or D fs k s t p) as [(_ & W & R)|[(_ & W & Ht & ps & Pp & Wh & R)|(X & _)]]; [| |contradiction]; rewrite R.
    + apply IH. exact F'.
    + destruct (k _ (h_n s) t ps p) as [s1 r1] eqn:Ek. destruct (K _ _ _ _ _ _ _ Ek) as [[->| ->] Hn]; [|right; reflexivity].
      apply IH. now rewrite Hn.
  - destruct (deliver (Some (checked E O fs k)) ph s (EPer pt p)) as [s1 r1] eqn:Ed. destruct (P s pt p s1 r1 Ed) as [[->| ->] Hn]; [|right; reflexivity].
    apply IH. now rewrite Hn.
Qed.

Lemma run_calm : forall D (th : option (D -> transaction -> str -> D * status)) ph s,
  calm (snd (deliver_all th ph s (fst (stream E O)))) ->
  snd (parse_cmd E O th ph s) = snd (stream E O) \/ snd (parse_cmd E O th ph s) = SPanic.
Proof.
  intros D th ph s K. pose proof (parse_cmd_fold E O D th ph s) as F. destruct (stream E O) as [evs r]. cbn [fst snd] in *.
  destruct (deliver_all th ph s evs) as [s1 r1]. cbn [snd] in K. destruct F as [_ F]. destruct K as [->| ->]; [left; exact F|right].
  destruct (snd (parse_cmd E O th ph s)); cbn in F; congruence.
Qed.

Lemma run_sure : forall D (th : option (D -> transaction -> str -> D * status)) ph s s',
  deliver_all th ph s (fst (stream E O)) = (s', SOk) -> parse_cmd E O th ph s = (s', snd (stream E O)).
Proof.
  intros D th ph s s' K. pose proof (parse_cmd_fold E O D th ph s) as F. destruct (stream E O) as [evs r]. cbn [fst snd] in *.
  rewrite K in F. destruct F as [F1 F2]. destruct (parse_cmd E O th ph s); cbn in *; congruence.
Qed.

Lemma addPostings_calm : forall ps j, calm (snd (j_addPostings j ps)).
Proof.
  induction ps as [|p ps IH]; intro j; cbn [j_addPostings]; [left; reflexivity|].
  destruct (j_addPosting j p) as [[j1 out]|]; [|right; reflexivity].
  specialize (IH j1). destruct (j_addPostings j1 ps) as [[j2 out2] r]. exact IH.
Qed.
Lemma addRun_calm : forall ts j loc, calm (snd (j_addRun j ts loc)).
Proof.
  induction ts as [|t ts IH]; intros j loc; cbn [j_addRun]; [left; reflexivity|].
  pose proof (addPostings_calm (t_postings t) (j_addTransaction j t loc)) as K.
  destruct (j_addPostings (j_addTransaction j t loc) (t_postings t)) as [[j1 out] r]. destruct K as [K|K]; cbn [snd] in K; subst r.
  - specialize (IH j1 loc). destruct (j_addRun j1 ts loc) as [[j2 out2] r]. exact IH.
  - right. reflexivity.
Qed.
Lemma b_addPostings_calm : forall f d ps b, calm (snd (b_addPostings f b d ps)).
Proof.
  intros f d. induction ps as [|p ps IH]; intro b; cbn [b_addPostings]; [left; reflexivity|].
  destruct (f p) as [ty|]; [|apply IH]. destruct (b_addPosting b d p ty) as [[b1 out]|]; [|right; reflexivity].
  specialize (IH b1). destruct (b_addPostings f b1 d ps) as [[b2 out2] r]. exact IH.
Qed.

Lemma balance_calm : forall fs, flags_ok E O (txns 0 (fst (stream E O))) ->
  snd (balance_run E O fs) = snd (stream E O) \/ snd (balance_run E O fs) = SPanic.
Proof.
  intros fs F. apply run_calm. apply checked_calm; [| |exact F].
  - intros s n t ps p s' r H. unfold balance_handler in H.
    pose proof (addPostings_calm ps (j_addTransaction (h_data s) t p)) as K.
    destruct (j_addPostings (j_addTransaction (h_data s) t p) ps) as [[j out] r0]. inversion H; subst. auto.
  - intros s pt p s' r H. cbn [deliver] in H. unfold balance_ph, j_addPeriodicTransaction in H.
    destruct (is_pnone (pe_interval (pt_period pt))); [inversion H; subst; split; [left|]; reflexivity|].
    destruct (pt_run pt) as [ts out0].
    match goal with H : context [j_addRun ?j ts p] |- _ => pose proof (addRun_calm ts j p) as K; destruct (j_addRun j ts p) as [[j2 out2] r2] end.
    inversion H; subst. auto.
Qed.
Lemma budget_delivers : forall fs, flags_ok E O (txns 0 (fst (stream E O))) ->
  calm (snd (deliver_all (Some (checked E O fs budget_handler)) (Some budget_ph) (HS 0 [] newBudget) (fst (stream E O)))).
Proof.
  intros fs F. apply checked_calm; [| |exact F].
  - intros s n t ps p s' r H. unfold budget_handler in H.
    pose proof (b_addPostings_calm budget_type (t_date t) ps (h_data s)) as K.
    destruct (b_addPostings budget_type (h_data s) (t_date t) ps) as [[j out] r0]. inversion H; subst. auto.
  - intros s pt p s' r H. cbn [deliver] in H. unfold budget_ph in H. destruct (pt_run pt) as [ts out0].
    destruct (is_pnone (pe_interval (pt_period pt))); [|inversion H; subst; split; [left|]; reflexivity].
    destruct ts as [|t ts]; [inversion H; subst; split; [right|]; reflexivity|].
    match goal with H : context [b_addPostings ?f ?b ?d ?ps] |- _ => pose proof (b_addPostings_calm f d ps b) as K; destruct (b_addPostings f b d ps) as [[j2 out2] r2] end.
    inversion H; subst. auto.
Qed.
Lemma budget_calm : forall fs, flags_ok E O (txns 0 (fst (stream E O))) ->
  snd (budget_run E O fs) = snd (stream E O) \/ snd (budget_run E O fs) = SPanic.
Proof. intros fs F. apply run_calm. now apply budget_delivers. Qed.
Lemma stats_calm : forall fs, flags_ok E O (txns 0 (fst (stream E O))) ->
  snd (stats_run E O fs) = snd (stream E O) \/ snd (stats_run E O fs) = SPanic.
Proof.
  intros fs F. apply run_calm. apply checked_calm; [| |exact F].
  - intros s n t ps p s' r H. unfold stats_handler in H.
    destruct (stats_step (h_data s) t ps p); inversion H; subst; split; solve [reflexivity|left; reflexivity|right; reflexivity].
  - intros s pt p s' r H. cbn [deliver] in H. inversion H; subst. split; [left|]; reflexivity.
Qed.
Lemma print_sure : forall fs, flags_ok E O (txns 0 (fst (stream E O))) ->
  exists s, print_run E O fs = (s, snd (stream E O)) /\ h_out s = [].
Proof.
  intros fs F.
  destruct (checked_total E O C Or _ fs print_handler None (fun s => h_out s = []) (fun _ => True)
    (fun s H => H)) with (evs := fst (stream E O)) (s := HS 0 [] (@nil transaction)) as (s & R & H).
  - intros s n t ps p H _ _. eexists. split; [reflexivity|]. split; [reflexivity|exact H].
  - intros s pt p H _. exists s. split; [reflexivity|]. auto.
  - reflexivity.
  - apply Forall_forall. intros; exact I.
  - exact F.
  - exists s. split; [|exact H]. now apply run_sure.
Qed.
Lemma accounts_sure : flags_ok E O (txns 0 (fst (stream E O))) ->
  exists s, accounts_run E O = (s, snd (stream E O)) /\ h_out s = [].
Proof.
  intros F.
  destruct (date_checked_run E O C _ accounts_handler (fun _ s => h_out s = []) (fun _ s H => H)) with (evs := fst (stream E O)) (sel := @nil used) (s := HS 0 [] (@nil str)) as [(_ & s & more & R & _ & H)|(X & _)].
  - intros sel s u H. eexists. split; [reflexivity|]. split; [exact H|reflexivity].
  - reflexivity.
  - exists s. split; [|exact H]. now apply run_sure.
  - contradiction.
Qed.
Lemma payees_sure : flags_ok E O (txns 0 (fst (stream E O))) ->
  exists s, payees_run E O = (s, snd (stream E O)) /\ h_out s = [].
Proof.
  intros F.
  destruct (date_checked_run E O C _ payees_handler (fun _ s => h_out s = []) (fun _ s H => H)) with (evs := fst (stream E O)) (sel := @nil used) (s := HS 0 [] (@nil str)) as [(_ & s & more & R & _ & H)|(X & _)].
  - intros sel s u H. eexists. split; [reflexivity|]. split; [exact H|reflexivity].
  - reflexivity.
  - exists s. split; [|exact H]. now apply run_sure.
  - contradiction.
Qed.
End Ends.

Lemma stream_error : forall E O e, snd (stream E O) = SErr e -> forall e', e <> EUsage e'.
Proof.
  intros E O e. unfold stream. destruct (journal_path E O) as [p|]; [|cbn; intros [= <-]; discriminate].
  destruct (e_fs E p) as [f|]; [|cbn; intros [= <-]; discriminate].
  intro H. apply trace_located in H as (e1 & -> & _). discriminate.
Qed.

Lemma close_error : forall b e, snd (close_open b) = SErr e -> e = ETwoElided \/ e = EUnbalanced.
Proof.
  assert (A : forall t p e, snd (t_addPosting t p) = Some e -> e = ETwoElided).
  { intros t p e. unfold t_addPosting. destruct (po_amount p); [discriminate|]. destruct (t_elided t); [|discriminate]. now intros [= <-]. }
  assert (B : forall t e, snd (t_close t) = Some e -> e = EUnbalanced).
  { intros t e. unfold t_close. destruct (close_loop (t_postings t) 0 []) as [sum c]. destruct (negb (sum =? 0)); [|discriminate].
    destruct (t_elided t); [discriminate|]. now intros [= <-]. }
  assert (N : forall b t e, snd (endNormalTransaction b t) = Some e -> e = ETwoElided \/ e = EUnbalanced).
  { intros b t e. unfold endNormalTransaction. destruct (b_cur b) as [p|].
    - pose proof (A t p) as At. destruct (t_addPosting t p) as [t1 [e1|]]; cbn [snd] in *.
      + intros [= <-]. left. auto.
      + intro H. right. eapply B; exact H.
    - intro H. right. eapply B; exact H. }
  intros b e. unfold close_open. destruct (b_type b).
  - destruct (b_txn b) as [t|]; [|discriminate]. specialize (N b t). destruct (endNormalTransaction b t) as [t' [e'|]]; [|discriminate].
    intros [= <-]. auto.
  - destruct (b_ptxn b) as [t|]; [|discriminate]. specialize (N b (pt_txn t)). destruct (endNormalTransaction b (pt_txn t)) as [t' [e'|]]; [|discriminate].
    intros [= <-]. auto.
Qed.
