(** * UTF-8 against its definition (RFC 3629): C55 *)
From Verif Require Import Base BaseFacts Utf8 Utf8Facts.

(** The bytes that carry a code point. *)
Inductive carries : Z -> str -> Prop :=
| Carry1 : forall r, 0 <= r < 128 -> carries r [r]
| Carry2 : forall a b, 0 <= a < 32 -> 0 <= b < 64 -> 128 <= 64 * a + b -> carries (64 * a + b) [192 + a; 128 + b]
| Carry3 : forall a b c, 0 <= a < 16 -> 0 <= b < 64 -> 0 <= c < 64 -> 2048 <= 4096 * a + 64 * b + c ->
    ~ 55296 <= 4096 * a + 64 * b + c <= 57343 -> carries (4096 * a + 64 * b + c) [224 + a; 128 + b; 128 + c]
| Carry4 : forall a b c d, 0 <= a < 8 -> 0 <= b < 64 -> 0 <= c < 64 -> 0 <= d < 64 ->
    65536 <= 262144 * a + 4096 * b + 64 * c + d <= 1114111 ->
    carries (262144 * a + 4096 * b + 64 * c + d) [240 + a; 128 + b; 128 + c; 128 + d].

(** The code points of a text: a byte with which none begins counts as U+FFFD. *)
Inductive spells : str -> list Z -> Prop :=
| SpellNone : spells [] []
| SpellOne : forall r bytes s rs, carries r bytes -> spells s rs -> spells (bytes ++ s) (r :: rs)
| SpellBad : forall b s rs, (forall r bytes s', carries r bytes -> b :: s <> bytes ++ s') -> spells s rs -> spells (b :: s) (65533 :: rs).

Lemma carries_decode : forall r bytes s, carries r bytes -> decode_rune (bytes ++ s) = (r, length bytes).
Proof.
  intros r bytes s H. destruct H; cbn [app length]; unfold decode_rune; repeat destr_if; bounds; try (f_equal; lia); try (exfalso; lia);
    repeat match goal with H : _ && _ = false |- _ => apply andb_false_iff in H as [H|H] | H : cont _ = false |- _ => unfold cont in H end; bounds; lia.
Qed.

Lemma decode_carries : forall s, s <> [] ->
  (exists bytes s', s = bytes ++ s' /\ carries (fst (decode_rune s)) bytes /\ snd (decode_rune s) = length bytes) \/
  decode_rune s = (65533, 1%nat).
Proof.
  intros [|p0 p'] N; [congruence|]. clear N. unfold decode_rune.
  destruct (between 0 p0 127) eqn:B1; bounds.
  { left. exists [p0], p'. repeat split. constructor. lia. }
  destruct (between 194 p0 223) eqn:B2; bounds.
  { destruct p' as [|b1 p']; [auto|]. destruct (cont b1) eqn:C1; [|auto]. bounds. left. exists [p0; b1], p'. repeat split. cbn [fst].
    replace p0 with (192 + (p0 - 192)) at 2 by lia. replace b1 with (128 + (b1 - 128)) at 2 by lia.
    replace ((p0 - 192) * 64) with (64 * (p0 - 192)) by lia. constructor; lia. }
  destruct (between 224 p0 239) eqn:B3; bounds.
  { destruct p' as [|b1 [|b2 p']]; [auto|auto|].
    destruct (between (if p0 =? 224 then 160 else 128) b1 (if p0 =? 237 then 159 else 191) && cont b2) eqn:C; [|auto].
    left. exists [p0; b1; b2], p'. repeat split. cbn [fst].
    replace p0 with (224 + (p0 - 224)) at 2 by lia. replace b1 with (128 + (b1 - 128)) at 2 by lia. replace b2 with (128 + (b2 - 128)) at 2 by lia.
    replace ((p0 - 224) * 4096 + (b1 - 128) * 64) with (4096 * (p0 - 224) + 64 * (b1 - 128)) by lia.
    repeat destr_if; bounds; constructor; lia. }
  destruct (between 240 p0 244) eqn:B4; bounds; [|auto].
  destruct p' as [|b1 [|b2 [|b3 p']]]; [auto|auto|auto|].
  destruct (between (if p0 =? 240 then 144 else 128) b1 (if p0 =? 244 then 143 else 191) && cont b2 && cont b3) eqn:C; [|auto].
  left. exists [p0; b1; b2; b3], p'. repeat split. cbn [fst].
  replace p0 with (240 + (p0 - 240)) at 2 by lia. replace b1 with (128 + (b1 - 128)) at 2 by lia. replace b2 with (128 + (b2 - 128)) at 2 by lia.
  replace b3 with (128 + (b3 - 128)) at 2 by lia.
  replace ((p0 - 240) * 262144 + (b1 - 128) * 4096 + (b2 - 128) * 64) with (262144 * (p0 - 240) + 4096 * (b1 - 128) + 64 * (b2 - 128)) by lia.
  repeat destr_if; bounds; constructor; lia.
Qed.

(** [[]rune(s)] of any bytes. *)
Theorem C55_decoded : forall s rs, decode s = rs <-> spells s rs.
Proof.
  assert (D : forall s, spells s (decode s)).
  { intro s. induction s as [s IH] using (induction_ltof1 _ (@length Z)). unfold ltof in IH.
    destruct s as [|b s]; [constructor|]. assert (N : b :: s <> []) by discriminate.
    rewrite decode_cons by exact N. destruct (decode_carries (b :: s) N) as [(bytes & s' & E & C & W)|E].
    - rewrite W, E, skipn_app, skipn_all, Nat.sub_diag. cbn [app skipn]. rewrite <- E. rewrite E at 1.
      constructor; [exact C|]. apply IH. rewrite E, app_length. destruct C; cbn [length]; lia.
    - rewrite E. cbn [fst snd skipn]. constructor; [|apply IH; cbn; lia].
      intros r bytes s' C Eq. pose proof (carries_decode _ _ s' C) as K. rewrite <- Eq, E in K. injection K as K1 K2.
      destruct C; try discriminate. lia. }
  intros s rs. split; [intros <-; apply D|]. intro H. induction H as [|r bytes s rs C H IH|b s rs Nb H IH].
  - reflexivity.
  - assert (N : bytes ++ s <> []) by (destruct C; discriminate).
    rewrite decode_cons by exact N. rewrite (carries_decode _ _ _ C). cbn [fst snd].
    rewrite skipn_app, skipn_all, Nat.sub_diag. cbn [app skipn]. now rewrite IH.
  - assert (N : b :: s <> []) by discriminate. rewrite decode_cons by exact N.
    destruct (decode_carries (b :: s) N) as [(bytes & s' & E & C & _)|E]; [destruct (Nb _ _ s' C E)|].
    rewrite E. cbn [fst snd skipn]. now rewrite IH.
Qed.

(** [string(runes)]: each code point that UTF-8 can carry becomes its bytes, any
    other number those of U+FFFD. *)
Theorem C55_encoded : forall r,
  (exists bytes, carries r bytes /\ encode [r] = bytes) \/ ((forall bytes, ~ carries r bytes) /\ encode [r] = [239; 191; 189]).
Proof.
  intro r. unfold encode. cbn [flat_map]. rewrite app_nil_r. unfold encode_rune. destruct (valid_rune r) eqn:V.
  - left. apply valid_rune_iff in V. eexists. split; [|reflexivity].
    assert (X : forall k, 0 < k -> r = k * (r / k) + r mod k /\ 0 <= r mod k < k) by (intros; now apply div_step).
    destruct (r <=? 127) eqn:B1; [apply Z.leb_le in B1; constructor; lia|]. apply Z.leb_gt in B1.
    destruct (r <=? 2047) eqn:B2; [apply Z.leb_le in B2|apply Z.leb_gt in B2].
    { destruct (X 64 eq_refl) as [E1 E2]. rewrite E1 at 1. constructor; lia. }
    assert (D1 : r / 4096 = r / 64 / 64) by (rewrite Z.div_div; [reflexivity|lia|lia]).
    pose proof (div_step (r / 64) 64 eq_refl) as [F1 F2]. destruct (X 64 eq_refl) as [E1 E2].
    destruct (r <=? 65535) eqn:B3; [apply Z.leb_le in B3|apply Z.leb_gt in B3].
    { assert (E : r = 4096 * (r / 4096) + 64 * ((r / 64) mod 64) + r mod 64) by lia. rewrite E at 1. constructor; lia. }
    assert (D2 : r / 262144 = r / 4096 / 64) by (rewrite Z.div_div; [reflexivity|lia|lia]).
    pose proof (div_step (r / 4096) 64 eq_refl) as [G1 G2].
    assert (E : r = 262144 * (r / 262144) + 4096 * ((r / 4096) mod 64) + 64 * ((r / 64) mod 64) + r mod 64) by lia. rewrite E at 1. constructor; lia.
  - right. split; [|reflexivity]. intros bytes C.
    assert (W : valid_rune r = true); [apply valid_rune_iff|congruence]. destruct C; lia.
Qed.

(** A byte that is not UTF-8, a surrogate, a form that is too long and one cut short. *)
Example C55_decoded_example : decode ([67; 255] ++ [237; 160; 128] ++ [192; 175] ++ [195; 169] ++ [226; 130]) =
  [67; 65533; 65533; 65533; 65533; 65533; 65533; 233; 65533; 65533].
Proof. vm_compute. reflexivity. Qed.
Example C55_encoded_example : encode [55296] = [239; 191; 189] /\ carries 8364 [226; 130; 172] /\ encode [8364] = [226; 130; 172].
Proof. split; [reflexivity|]. split; [apply (Carry3 2 2 44); lia|reflexivity]. Qed.
