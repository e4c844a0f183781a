(** * The classes of characters, written out: C62

    Letters, digits and capitals of Latin-1 as texts; the 25 characters that
    Unicode calls White_Space as numbers. *)
From Verif Require Import Base BaseFacts Utf8 Unicode.

Definition letters : str := lit
"ABCDEFGHIJKLMNOPQRSTUVWXYZabcdefghijklmnopqrstuvwxyzªµºÀÁÂÃÄÅÆÇÈÉÊËÌÍÎÏÐÑÒÓÔÕÖØÙÚÛÜÝÞßàáâãäåæçèéêëìíîïðñòóôõöøùúûüýþÿ".
Definition numbers : str := lit "0123456789²³¹¼½¾".
Definition capitals : str := lit "ABCDEFGHIJKLMNOPQRSTUVWXYZÀÁÂÃÄÅÆÇÈÉÊËÌÍÎÏÐÑÒÓÔÕÖØÙÚÛÜÝÞ".
Definition white_space : list Z :=
  [9; 10; 11; 12; 13; 32; 133; 160; 5760; 8192; 8193; 8194; 8195; 8196; 8197; 8198; 8199; 8200; 8201; 8202; 8232; 8233; 8239; 8287; 12288].

Lemma latin : forall (P : Z -> bool) (cs : list Z),
  forallb (fun n => Bool.eqb (P (Z.of_nat n)) (existsb (Z.eqb (Z.of_nat n)) cs)) (seq 0 256) = true ->
  forall r, 0 <= r < 256 -> (P r = true <-> In r cs).
Proof.
  intros P cs H r R. rewrite forallb_forall in H. specialize (H (Z.to_nat r)). rewrite Z2Nat.id in H by lia.
  assert (I : In (Z.to_nat r) (seq 0 256)) by (apply in_seq; lia). apply H, Bool.eqb_prop in I. rewrite I, existsb_exists. split.
  - intros (x & J & E). apply Z.eqb_eq in E. now subst x.
  - intro J. exists r. split; [exact J|apply Z.eqb_refl].
Qed.

Theorem C62_latin : forall U r, 0 <= r < 256 ->
  (isLetter U r = true <-> In r (decode letters)) /\ (isNumber U r = true <-> In r (decode numbers)) /\ (isUpper U r = true <-> In r (decode capitals)).
Proof.
  intros U r R. split; [|split]; (apply latin; [vm_compute; reflexivity|exact R]).
Qed.

(** Above Latin-1 the classes are those of the library; the lexer's end mark is in none. *)
Theorem C62_beyond : forall U r, (256 <= r -> isLetter U r = u_letter U r /\ isNumber U r = u_number U r /\ isUpper U r = u_upper U r) /\
  (r < 0 -> isLetter U r = false /\ isNumber U r = false /\ isUpper U r = false).
Proof.
  intros U r. unfold isLetter, isNumber, isUpper. split; intro H; destruct (Z.ltb_spec r 0); try lia; auto.
  destruct (Z.leb_spec r 255); [lia|auto].
Qed.

Theorem C62_space : forall r, isSpace r = true <-> In r white_space.
Proof.
  intro r. unfold isSpace, between. rewrite !orb_true_iff, !andb_true_iff, !Z.leb_le, !Z.eqb_eq. cbn [In white_space]. lia.
Qed.

Example C62_classes_example : In 233 (decode letters) /\ ~ In 215 (decode letters) /\ length (decode letters) = 117%nat /\ length white_space = 25%nat.
Proof. vm_compute. intuition discriminate. Qed.
