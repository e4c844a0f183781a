(** * Texts that the lexer returns unchanged *)
From Verif Require Import Base BaseFacts Utf8 Utf8Facts Unicode Lexer LexSpec LexerFacts JournalText.

Lemma trimSpaceEnd_id : forall rs, ends_nonspace rs -> trimSpaceEnd rs = rs.
Proof.
  intros rs H. unfold trimSpaceEnd. destruct (rev rs) as [|r l] eqn:E; [reflexivity|].
  assert (rs = rev l ++ [r]) as -> by (rewrite <- (rev_involutive rs), E; reflexivity).
  unfold ends_nonspace in H. rewrite last_last in H. apply Z.eqb_neq in H. now rewrite H.
Qed.
Lemma trimSpaceEnd_space : forall rs, trimSpaceEnd (rs ++ [c_space]) = rs.
Proof. intro. unfold trimSpaceEnd. rewrite rev_app_distr. cbn. now rewrite rev_involutive. Qed.

Lemma to_tab_clean : forall rs acc, unbroken rs -> to_tab acc rs = (trimSpaceEnd (acc ++ rs), []).
Proof.
  induction rs as [|r rs IH]; intros acc [B S]; cbn [to_tab]; [now rewrite app_nil_r|].
  inversion_clear B as [|? ? Br B']. cbn in S. apply andb_true_iff in S as [S1 S2]. apply negb_true_iff in S1.
  unfold breaks in Br. rewrite Br, S1. rewrite IH by (split; assumption). now rewrite <- app_assoc.
Qed.

(** ... followed by two spaces. *)
Lemma single_spaced_app : forall a b, single_spaced (a ++ b) = true -> single_spaced a = true /\ single_spaced b = true.
Proof.
  induction a as [|r a IH]; intros b H; cbn [app single_spaced] in *; [auto|].
  apply andb_true_iff in H as [H1 H2]. apply IH in H2 as [H2 H3]. split; [|assumption].
  apply andb_true_iff. split; [|assumption]. apply negb_true_iff in H1. apply negb_true_iff.
  apply andb_false_iff in H1. apply andb_false_iff. destruct H1 as [H1|H1]; [now left|right].
  destruct a; [reflexivity|assumption].
Qed.

Lemma to_tab_gap : forall rs acc t, unbroken rs -> ends_nonspace rs \/ rs = [] ->
  to_tab acc (rs ++ c_space :: c_space :: t) = (acc ++ rs, c_space :: t).
Proof.
  induction rs as [|r rs IH]; intros acc t [B S] E.
  - cbn [app to_tab]. replace (isCommentIndicator c_space || (c_space =? c_tab)) with false by reflexivity.
    rewrite Z.eqb_refl. cbn. now rewrite app_nil_r.
  - inversion_clear B as [|? ? Br B']. cbn in S. apply andb_true_iff in S as [S1 S2]. apply negb_true_iff in S1.
    cbn [app to_tab]. unfold breaks in Br. rewrite Br.
    destruct E as [E|E]; [|discriminate].
    assert ((r =? c_space) && match rs ++ c_space :: c_space :: t with r2 :: _ => r2 =? c_space | [] => false end = false) as ->.
    { destruct rs as [|r2 rs]; cbn [app].
      - unfold ends_nonspace in E. cbn in E. apply Z.eqb_neq in E. now rewrite E.
      - exact S1. }
    rewrite IH; [now rewrite <- app_assoc|split; assumption|].
    destruct rs; [now right|left]. unfold ends_nonspace in *. exact E.
Qed.

(** Account names: no tab, no two spaces in a row. *)
Lemma account_name_clean : forall rs acc (previous : bool) t,
  rs <> [] -> Forall (fun r => (r =? c_tab) = false) rs ->
  single_spaced (if previous then c_space :: rs else rs) = true ->
  ends_nonspace rs -> t = [] \/ (exists t', t = c_space :: c_space :: t') ->
  account_name acc previous (rs ++ t) = (acc ++ rs, t).
Proof.
  induction rs as [|r rs IH]; intros acc previous t N T S E Ht; [congruence|].
  inversion_clear T as [|? ? Tr T']. cbn [app account_name]. rewrite Tr.
  assert ((r =? c_space) && previous = false) as ->.
  { destruct previous; [|now rewrite andb_false_r]. cbn in S. rewrite andb_true_r.
    apply andb_true_iff in S as [S _]. now apply negb_true_iff in S. }
  assert (Srs : single_spaced (r :: rs) = true).
  { destruct previous; [|exact S]. cbn [single_spaced] in S. now apply andb_true_iff in S as [_ S]. }
  destruct rs as [|r2 rs].
  - unfold ends_nonspace in E. cbn in E. apply Z.eqb_neq in E. rewrite E. cbn [app].
    destruct Ht as [->|[t' ->]].
    + cbn. reflexivity.
    + cbn [account_name]. replace (c_space =? c_tab) with false by reflexivity. cbn [andb].
      rewrite Z.eqb_refl. cbn [andb]. rewrite removelast_last. reflexivity.
  - rewrite IH; try assumption.
    + now rewrite <- app_assoc.
    + discriminate.
    + destruct (r =? c_space) eqn:Er; [|exact (proj2 (proj1 (andb_true_iff _ _) Srs))].
      apply Z.eqb_eq in Er. subst r. exact Srs.
Qed.

Lemma until_space_clean : forall rs t, Forall (fun r => (r =? c_space) = false) rs ->
  t = [] \/ hd 0 t = c_space -> until_space (rs ++ t) = (rs, t).
Proof.
  induction rs as [|r rs IH]; intros t F H; cbn [app until_space].
  - destruct t as [|x t]; [reflexivity|]. destruct H as [H|H]; [discriminate|]. cbn in H. subst x. reflexivity.
  - inversion_clear F as [|? ? Fr F']. now rewrite Fr, IH.
Qed.

Lemma commodity_name_clean : forall U rs t,
  Forall (fun r => isNumber U r || (r =? c_minus) || (r =? c_plus) || (r =? c_space) || (r =? c_tab) = false) rs ->
  t = [] \/ isNumber U (hd 0 t) || (hd 0 t =? c_minus) || (hd 0 t =? c_plus) || (hd 0 t =? c_space) || (hd 0 t =? c_tab) = true ->
  commodity_name U (rs ++ t) = (rs, t).
Proof.
  intros U. induction rs as [|r rs IH]; intros t F H; cbn [app commodity_name].
  - destruct t as [|x t]; [reflexivity|]. destruct H as [H|H]; [discriminate|]. cbn [hd] in H. cbn. now rewrite H.
  - inversion_clear F as [|? ? Fr F']. now rewrite Fr, IH.
Qed.

Lemma drop_space_id : forall r rs, isSpace r = false -> drop_space (r :: rs) = r :: rs.
Proof. intros. cbn. now rewrite H. Qed.
Lemma drop_space_space : forall rs, drop_space (c_space :: rs) = drop_space rs.
Proof. reflexivity. Qed.
Lemma trimSpaceStart_id : forall r rs, (r =? c_space) = false -> trimSpaceStart (r :: rs) = r :: rs.
Proof. intros r rs H. unfold trimSpaceStart. cbn. now rewrite H. Qed.
Lemma trimSpaceStart_space : forall r rs, (r =? c_space) = false -> trimSpaceStart (c_space :: r :: rs) = r :: rs.
Proof. intros r rs H. unfold trimSpaceStart. cbn. now rewrite H. Qed.

Lemma to_tab_stop : forall rs acc c t, unbroken rs -> breaks c = true -> to_tab acc (rs ++ c :: t) = (trimSpaceEnd (acc ++ rs), t).
Proof.
  induction rs as [|r rs IH]; intros acc c t [B S] C.
  - cbn [app to_tab]. unfold breaks in C. rewrite C. now rewrite app_nil_r.
  - inversion_clear B as [|? ? Br B']. cbn in S. apply andb_true_iff in S as [S1 S2]. apply negb_true_iff in S1.
    cbn [app to_tab]. unfold breaks in Br. rewrite Br.
    assert (X : (r =? c_space) && match rs ++ c :: t with r2 :: _ => r2 =? c_space | [] => false end = false).
    { destruct rs as [|r2 rs]; [|exact S1]. cbn [app]. destruct (c =? c_space) eqn:Q; [|apply andb_false_r].
      apply Z.eqb_eq in Q. subst c. discriminate C. }
    rewrite X, IH by (try split; assumption). now rewrite <- app_assoc.
Qed.
Lemma unbroken_snoc : forall rs, unbroken rs -> ends_nonspace rs -> unbroken (rs ++ [32]).
Proof.
  intros rs [B S] E. split; [apply Forall_app; split; [exact B|repeat constructor]|]. clear B.
  induction rs as [|r rs IH]; [reflexivity|]. cbn [app single_spaced] in *. apply andb_true_iff in S as [S1 S2]. apply andb_true_iff. split.
  - destruct rs as [|r2 rs]; [|exact S1]. cbn. unfold ends_nonspace in E. cbn in E. apply Z.eqb_neq in E. now rewrite E.
  - apply IH; [exact S2|]. destruct rs; [discriminate|exact E].
Qed.
