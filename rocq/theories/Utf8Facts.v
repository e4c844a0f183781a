(** * Facts about UTF-8 decoding and encoding *)
From Coq Require Import ZArith Lia.
From Verif Require Import Base BaseFacts Utf8.

Lemma between_iff : forall lo x hi, between lo x hi = true <-> lo <= x <= hi.
Proof. intros. unfold between. rewrite andb_true_iff, !Z.leb_le. reflexivity. Qed.

Lemma between_false : forall lo x hi, between lo x hi = false <-> x < lo \/ hi < x.
Proof. intros. unfold between. rewrite andb_false_iff, !Z.leb_gt. lia. Qed.

Ltac destr_if :=
  match goal with
  | |- context [if ?b then _ else _] => let E := fresh "E" in destruct b eqn:E
  | H : context [if ?b then _ else _] |- _ => let E := fresh "E" in destruct b eqn:E
  end.

Lemma decode_rune_width : forall s, s <> [] -> (1 <= snd (decode_rune s) <= length s)%nat.
Proof.
  intros [|p0 p'] H; [congruence|]. clear H. unfold decode_rune.
  destruct p' as [|b1 [|b2 [|b3 q]]]; repeat destr_if; cbn; lia.
Qed.

Ltac bounds :=
  repeat match goal with
  | H : _ && _ = true |- _ => apply andb_true_iff in H as [? ?]
  | H : between _ _ _ = true |- _ => apply between_iff in H
  | H : cont _ = true |- _ => apply between_iff in H
  | H : between _ _ _ = false |- _ => apply between_false in H
  | H : (_ =? _) = true |- _ => apply Z.eqb_eq in H
  | H : (_ =? _) = false |- _ => apply Z.eqb_neq in H
  end.

Lemma decode_rune_valid : forall s, valid_rune (fst (decode_rune s)) = true.
Proof.
  intros [|p0 p']; [reflexivity|]. unfold decode_rune, valid_rune.
  apply orb_true_iff. rewrite !between_iff.
  destruct p' as [|b1 [|b2 [|b3 q]]]; repeat destr_if; cbn [fst]; bounds; unfold RuneError; lia.
Qed.

Lemma decode_rune_nonneg : forall s, 0 <= fst (decode_rune s).
Proof.
  intro s. pose proof (decode_rune_valid s) as H. unfold valid_rune in H.
  apply orb_true_iff in H. rewrite !between_iff in H. lia.
Qed.

(** The fuel is enough. *)
Lemma decode_fuel_enough : forall f1 s f2, (length s <= f1)%nat -> (length s <= f2)%nat ->
  decode_fuel f1 s = decode_fuel f2 s.
Proof.
  induction f1 as [|f1 IH]; intros s f2 H1 H2.
  - destruct s; cbn in *; [|lia]. destruct f2; reflexivity.
  - destruct s as [|c s]; [destruct f2; reflexivity|].
    destruct f2 as [|f2]; [cbn in H2; lia|]. cbn [decode_fuel].
    pose proof (decode_rune_width (c :: s) ltac:(discriminate)) as W.
    destruct (decode_rune (c :: s)) as [r w]. cbn [snd] in W. f_equal.
    apply IH; rewrite skipn_length; lia.
Qed.

Lemma decode_w_cons : forall s, s <> [] ->
  decode_w s = decode_rune s :: decode_w (skipn (snd (decode_rune s)) s).
Proof.
  intros s H. unfold decode_w. destruct s as [|c s]; [congruence|].
  change (length (c :: s)) with (S (length s)) at 1. cbn [decode_fuel].
  pose proof (decode_rune_width (c :: s) ltac:(discriminate)) as W.
  destruct (decode_rune (c :: s)) as [r w]. cbn [snd] in *. f_equal.
  apply decode_fuel_enough; rewrite skipn_length; cbn [length] in *; lia.
Qed.

Lemma decode_cons : forall s, s <> [] ->
  decode s = fst (decode_rune s) :: decode (skipn (snd (decode_rune s)) s).
Proof. intros s H. unfold decode. rewrite decode_w_cons by assumption. reflexivity. Qed.

Lemma decode_nil : decode [] = []. Proof. reflexivity. Qed.

Lemma decode_nil_iff : forall s, decode s = [] <-> s = [].
Proof.
  intro s. destruct s; [tauto|]. rewrite decode_cons by discriminate. split; discriminate.
Qed.

(** Induction following the decoder. *)
Lemma decode_ind : forall (P : str -> Prop), P [] ->
  (forall s, s <> [] -> P (skipn (snd (decode_rune s)) s) -> P s) -> forall s, P s.
Proof.
  intros P H0 H1 s. remember (length s) as n eqn:E.
  assert (length s <= n)%nat as L by lia. clear E. revert s L.
  induction n; intros s L.
  - destruct s; [assumption|cbn in L; lia].
  - destruct s as [|c s]; [assumption|]. apply H1; [discriminate|]. apply IHn.
    rewrite skipn_length. pose proof (decode_rune_width (c :: s) ltac:(discriminate)). lia.
Qed.

Lemma decode_valid : forall s, Forall (fun r => valid_rune r = true) (decode s).
Proof.
  apply decode_ind; [constructor|]. intros s H IH. rewrite decode_cons by assumption.
  constructor; [apply decode_rune_valid|assumption].
Qed.

Lemma valid_rune_iff : forall r, valid_rune r = true <-> (0 <= r <= 55295 \/ 57344 <= r <= 1114111).
Proof. intro. unfold valid_rune. rewrite orb_true_iff, !between_iff. reflexivity. Qed.

(** Decoding what was encoded. *)
Ltac decide_tests :=
  repeat match goal with
  | |- context [between ?a ?b ?c] =>
      first [ replace (between a b c) with true by (symmetry; apply between_iff; lia)
            | replace (between a b c) with false by (symmetry; apply between_false; lia) ]
  | |- context [?a =? ?b] =>
      first [ replace (a =? b) with true by (symmetry; apply Z.eqb_eq; lia)
            | replace (a =? b) with false by (symmetry; apply Z.eqb_neq; lia) ]
  end.

Lemma div_step : forall r k, 0 < k -> r = k * (r / k) + r mod k /\ 0 <= r mod k < k.
Proof. intros. split; [apply Z.div_mod; lia|apply Z.mod_pos_bound; lia]. Qed.

Lemma decode_encode_rune : forall r s, valid_rune r = true ->
  decode_rune (encode_rune r ++ s) = (r, length (encode_rune r)).
Proof.
  intros r s V. unfold encode_rune. rewrite V. apply valid_rune_iff in V.
  destruct (r <=? 127) eqn:E1; [|destruct (r <=? 2047) eqn:E2; [|destruct (r <=? 65535) eqn:E3]];
    rewrite ?Z.leb_le, ?Z.leb_gt in *.
  - cbn [app decode_rune length]. decide_tests. reflexivity.
  - destruct (div_step r 64 ltac:(lia)) as [D M].
    set (q := r / 64) in *. set (m := r mod 64) in *.
    cbn [app decode_rune length]. unfold cont. decide_tests. f_equal. lia.
  - destruct (div_step r 64 ltac:(lia)) as [D M].
    destruct (div_step (r / 64) 64 ltac:(lia)) as [D' M'].
    rewrite Z.div_div in D' by lia. change (64 * 64) with 4096 in D'.
    set (q := r / 4096) in *. set (m := r mod 64) in *. set (m' := (r / 64) mod 64) in *.
    set (q' := r / 64) in *.
    cbn [app decode_rune length]. unfold cont. decide_tests.
    destruct (224 + q =? 224) eqn:Q1; destruct (224 + q =? 237) eqn:Q2;
      rewrite ?Z.eqb_eq, ?Z.eqb_neq in *; decide_tests; cbn [andb]; (f_equal; lia).
  - destruct (div_step r 64 ltac:(lia)) as [D M].
    destruct (div_step (r / 64) 64 ltac:(lia)) as [D' M'].
    rewrite Z.div_div in D' by lia. change (64 * 64) with 4096 in D'.
    destruct (div_step (r / 4096) 64 ltac:(lia)) as [D'' M''].
    rewrite Z.div_div in D'' by lia. change (4096 * 64) with 262144 in D''.
    set (q := r / 262144) in *. set (m := r mod 64) in *. set (m' := (r / 64) mod 64) in *.
    set (m'' := (r / 4096) mod 64) in *. set (q' := r / 64) in *. set (q'' := r / 4096) in *.
    cbn [app decode_rune length]. unfold cont. decide_tests.
    destruct (240 + q =? 240) eqn:Q1; destruct (240 + q =? 244) eqn:Q2;
      rewrite ?Z.eqb_eq, ?Z.eqb_neq in *; decide_tests; cbn [andb]; (f_equal; lia).
Qed.

Lemma encode_rune_nonempty : forall r, encode_rune r <> [].
Proof. intro r. unfold encode_rune. repeat destr_if; discriminate. Qed.

Lemma decode_encode_cons : forall r s, valid_rune r = true ->
  decode (encode_rune r ++ s) = r :: decode s.
Proof.
  intros r s V. rewrite decode_cons.
  - rewrite decode_encode_rune by assumption. cbn [fst snd].
    rewrite skipn_app, skipn_all, Nat.sub_diag. reflexivity.
  - intro H. apply app_eq_nil in H as [H _]. now apply encode_rune_nonempty in H.
Qed.

Lemma decode_encode_app : forall rs s, Forall (fun r => valid_rune r = true) rs ->
  decode (encode rs ++ s) = rs ++ decode s.
Proof.
  induction rs as [|r rs IH]; intros s H; [reflexivity|]. inversion H; subst.
  cbn [encode flat_map]. rewrite <- app_assoc, decode_encode_cons by assumption.
  cbn [app]. f_equal. apply IH. assumption.
Qed.

Lemma decode_encode : forall rs, Forall (fun r => valid_rune r = true) rs -> decode (encode rs) = rs.
Proof.
  intros. rewrite <- (app_nil_r (encode rs)), decode_encode_app by assumption. now rewrite app_nil_r.
Qed.

Lemma encode_app : forall a b, encode (a ++ b) = encode a ++ encode b.
Proof. intros. apply flat_map_app. Qed.

Lemma encode_cons : forall r rs, encode (r :: rs) = encode_rune r ++ encode rs.
Proof. reflexivity. Qed.

(** Valid UTF-8: bytes that are the encoding of some valid runes. *)
Definition valid_utf8 (s : str) : Prop :=
  exists rs, Forall (fun r => valid_rune r = true) rs /\ s = encode rs.

Lemma encode_decode : forall s, valid_utf8 s -> encode (decode s) = s.
Proof. intros s (rs & V & ->). now rewrite decode_encode. Qed.

Lemma valid_utf8_decode : forall s, valid_utf8 s <-> encode (decode s) = s.
Proof.
  intro s. split; [apply encode_decode|]. intro H. exists (decode s). split; [apply decode_valid|auto].
Qed.

Lemma valid_utf8_app : forall a b, valid_utf8 a -> valid_utf8 b -> valid_utf8 (a ++ b).
Proof.
  intros a b (ra & Va & ->) (rb & Vb & ->). exists (ra ++ rb).
  rewrite encode_app. split; [now apply Forall_app|reflexivity].
Qed.

Lemma decode_app_valid : forall a b, valid_utf8 a -> decode (a ++ b) = decode a ++ decode b.
Proof.
  intros a b (ra & Va & ->). now rewrite decode_encode_app, decode_encode.
Qed.

(** ASCII *)
Definition ascii (c : Z) : Prop := 0 <= c <= 127.

Lemma ascii_valid : forall c, ascii c -> valid_rune c = true.
Proof. intros c H. apply valid_rune_iff. unfold ascii in H. lia. Qed.

Lemma encode_ascii_rune : forall c, ascii c -> encode_rune c = [c].
Proof.
  intros c H. unfold encode_rune. rewrite ascii_valid by assumption.
  destruct (c <=? 127) eqn:E; [reflexivity|]. apply Z.leb_gt in E. unfold ascii in H. lia.
Qed.

Lemma encode_ascii : forall s, Forall ascii s -> encode s = s.
Proof.
  induction 1 as [|c s H _ IH]; [reflexivity|]. rewrite encode_cons, encode_ascii_rune, IH by assumption. reflexivity.
Qed.

Lemma decode_ascii_cons : forall c s, ascii c -> decode (c :: s) = c :: decode s.
Proof.
  intros c s H. change (c :: s) with ([c] ++ s).
  rewrite <- (encode_ascii_rune c H) at 1. apply decode_encode_cons. now apply ascii_valid.
Qed.

Lemma decode_ascii_app : forall a s, Forall ascii a -> decode (a ++ s) = a ++ decode s.
Proof.
  induction 1 as [|c a H _ IH]; [reflexivity|]. cbn [app]. rewrite decode_ascii_cons, IH by assumption. reflexivity.
Qed.

Lemma decode_ascii : forall a, Forall ascii a -> decode a = a.
Proof. intros. rewrite <- (app_nil_r a) at 1. rewrite decode_ascii_app by assumption. now rewrite app_nil_r. Qed.

Lemma valid_utf8_ascii : forall a, Forall ascii a -> valid_utf8 a.
Proof.
  intros. exists a. split; [|now rewrite encode_ascii].
  eapply Forall_impl; [|exact H]. intros. now apply ascii_valid.
Qed.
