(** * Facts about the base functions *)
From Coq Require Import Zdiv.
From Verif Require Import Base.

(** ** Strings *)
Lemma str_eqb_eq : forall a b, str_eqb a b = true <-> a = b.
Proof.
  induction a as [|x a IH]; destruct b as [|y b]; cbn; split; intro H;
    try reflexivity; try discriminate.
  - apply andb_true_iff in H as [H1 H2]. apply Z.eqb_eq in H1. apply IH in H2. congruence.
  - injection H as -> ->. rewrite Z.eqb_refl. apply IH. reflexivity.
Qed.

Lemma str_eqb_refl : forall a, str_eqb a a = true.
Proof. intro a. now apply str_eqb_eq. Qed.

Lemma str_eqb_neq : forall a b, str_eqb a b = false <-> a <> b.
Proof.
  intros. destruct (str_eqb a b) eqn:E.
  - apply str_eqb_eq in E. split; congruence.
  - split; [|reflexivity]. intros _ ->. now rewrite str_eqb_refl in E.
Qed.

Lemma str_eqb_sym : forall a b, str_eqb a b = str_eqb b a.
Proof.
  intros. destruct (str_eqb b a) eqn:E.
  - apply str_eqb_eq in E as ->. apply str_eqb_refl.
  - apply str_eqb_neq. apply str_eqb_neq in E. congruence.
Qed.

Lemma str_eq_dec : forall a b : str, {a = b} + {a <> b}.
Proof.
  intros. destruct (str_eqb a b) eqn:E; [left; now apply str_eqb_eq|right; now apply str_eqb_neq].
Defined.

(** ** The byte order is a strict total order *)
Lemma str_ltb_irrefl : forall a, str_ltb a a = false.
Proof.
  induction a as [|x a IH]; cbn; [reflexivity|].
  rewrite Z.ltb_irrefl, Z.eqb_refl, IH. reflexivity.
Qed.

Lemma str_ltb_trans : forall a b c, str_ltb a b = true -> str_ltb b c = true -> str_ltb a c = true.
Proof.
  induction a as [|x a IH]; destruct b as [|y b]; destruct c as [|z c]; cbn; try discriminate; auto.
  intros H1 H2. apply orb_true_iff in H1. apply orb_true_iff in H2. apply orb_true_iff.
  rewrite !andb_true_iff, !Z.ltb_lt, !Z.eqb_eq in *.
  destruct H1 as [H1|[H1 H1']]; destruct H2 as [H2|[H2 H2']]; try (left; lia).
  right. split; [lia|]. eapply IH; eauto.
Qed.

Lemma str_ltb_total : forall a b, str_ltb a b = false -> str_ltb b a = false -> a = b.
Proof.
  induction a as [|x a IH]; destruct b as [|y b]; cbn; try discriminate; auto.
  intros H1 H2. apply orb_false_iff in H1 as [H1 H1']. apply orb_false_iff in H2 as [H2 H2'].
  apply Z.ltb_ge in H1. apply Z.ltb_ge in H2.
  assert (x = y) as -> by lia. rewrite Z.eqb_refl in *. cbn in *. f_equal. auto.
Qed.

(** ** int64 *)
Lemma two64_pos : two64 > 0. Proof. reflexivity. Qed.
Lemma two64_63 : two64 = 2 * two63. Proof. reflexivity. Qed.

Lemma wrap64_range : forall z, - two63 <= wrap64 z < two63.
Proof.
  intro z. unfold wrap64. pose proof (Z.mod_pos_bound (z + two63) two64 ltac:(reflexivity)).
  rewrite two64_63 in *. lia.
Qed.

Lemma wrap64_id : forall z, in_int64 z -> wrap64 z = z.
Proof.
  intros z H. unfold wrap64, in_int64 in *. rewrite Z.mod_small; [lia|]. rewrite two64_63. lia.
Qed.

Lemma wrap64_mod : forall z, wrap64 z mod two64 = z mod two64.
Proof.
  intro z. unfold wrap64. rewrite Zminus_mod_idemp_l. f_equal. lia.
Qed.

Lemma wrap64_congr : forall a b, a mod two64 = b mod two64 -> wrap64 a = wrap64 b.
Proof.
  intros a b H. unfold wrap64. rewrite <- (Zplus_mod_idemp_l a), H, Zplus_mod_idemp_l. reflexivity.
Qed.

Lemma wrap64_eq_iff : forall a b, wrap64 a = wrap64 b <-> a mod two64 = b mod two64.
Proof.
  intros. split; [|apply wrap64_congr]. intro H. rewrite <- wrap64_mod, H. apply wrap64_mod.
Qed.

Lemma wrap64_wrap64 : forall a, wrap64 (wrap64 a) = wrap64 a.
Proof. intro a. apply wrap64_id. apply wrap64_range. Qed.

Lemma wrap64_add_l : forall a b, wrap64 (wrap64 a + b) = wrap64 (a + b).
Proof. intros. apply wrap64_congr. rewrite <- Zplus_mod_idemp_l, wrap64_mod, Zplus_mod_idemp_l. reflexivity. Qed.
Lemma wrap64_add_r : forall a b, wrap64 (a + wrap64 b) = wrap64 (a + b).
Proof. intros. rewrite Z.add_comm, wrap64_add_l, Z.add_comm. reflexivity. Qed.
Lemma wrap64_sub_l : forall a b, wrap64 (wrap64 a - b) = wrap64 (a - b).
Proof. intros. apply (wrap64_add_l a (- b)). Qed.
Lemma wrap64_opp : forall a, wrap64 (- wrap64 a) = wrap64 (- a).
Proof.
  intros. apply wrap64_congr. rewrite <- !Z.sub_0_l.
  rewrite <- Zminus_mod_idemp_r, wrap64_mod, Zminus_mod_idemp_r. reflexivity.
Qed.
Lemma wrap64_sub_r : forall a b, wrap64 (a - wrap64 b) = wrap64 (a - b).
Proof.
  intros. replace (a - wrap64 b) with (a + - wrap64 b) by lia. rewrite <- wrap64_add_r, wrap64_opp, wrap64_add_r.
  reflexivity.
Qed.
Lemma wrap64_mul_l : forall a b, wrap64 (wrap64 a * b) = wrap64 (a * b).
Proof. intros. apply wrap64_congr. rewrite <- Zmult_mod_idemp_l, wrap64_mod, Zmult_mod_idemp_l. reflexivity. Qed.
Lemma wrap64_mul_r : forall a b, wrap64 (a * wrap64 b) = wrap64 (a * b).
Proof. intros. rewrite Z.mul_comm, wrap64_mul_l, Z.mul_comm. reflexivity. Qed.
Lemma wrap64_0 : wrap64 0 = 0. Proof. reflexivity. Qed.
Lemma wrap64_zero_iff : forall z, wrap64 z = 0 <-> z mod two64 = 0.
Proof. intro z. rewrite <- (wrap64_eq_iff z 0). rewrite wrap64_0. reflexivity. Qed.

(** ** Association lists at string keys *)
Section AssocStr.
Context {K V : Type} (eqb : K -> K -> bool).
Hypothesis eqb_eq : forall a b, eqb a b = true <-> a = b.

Lemma eqb_refl' : forall a, eqb a a = true. Proof. intro. now apply eqb_eq. Qed.

Lemma eqb_neq' : forall a b, a <> b -> eqb a b = false.
Proof. intros. destruct (eqb a b) eqn:E; [|reflexivity]. apply eqb_eq in E. contradiction. Qed.

Lemma assoc_in : forall (l : list (K * V)) k v, assoc eqb k l = Some v -> In (k, v) l.
Proof.
  induction l as [|[k' v'] l IH]; cbn; [discriminate|]. intros k v H.
  destruct (eqb k k') eqn:E; [|right; auto].
  apply eqb_eq in E as ->. injection H as ->. now left.
Qed.

Lemma in_assoc : forall (l : list (K * V)) k v, NoDup (map fst l) -> In (k, v) l -> assoc eqb k l = Some v.
Proof.
  induction l as [|[k' v'] l IH]; cbn; [tauto|]. intros k v ND [H|H]; inversion ND; subst.
  - injection H as -> ->. now rewrite eqb_refl'.
  - rewrite eqb_neq'; [auto|]. intros ->. apply H2. now apply (in_map fst) in H.
Qed.

Lemma assoc_none : forall (l : list (K * V)) k, assoc eqb k l = None <-> ~ In k (map fst l).
Proof.
  induction l as [|[k' v'] l IH]; cbn; [tauto|]. intros k. destruct (eqb k k') eqn:E.
  - apply eqb_eq in E as ->. split; [discriminate|tauto].
  - rewrite IH. split; [|tauto]. intros H [->|H']; [|tauto]. now rewrite eqb_refl' in E.
Qed.

Lemma assoc_set_same : forall (l : list (K * V)) k v, assoc eqb k (assoc_set eqb k v l) = Some v.
Proof.
  induction l as [|[k' v'] l IH]; cbn; intros; [now rewrite eqb_refl'|].
  destruct (eqb k k') eqn:E; cbn; rewrite E; auto.
Qed.

Lemma assoc_set_other : forall (l : list (K * V)) k k' v, k <> k' ->
  assoc eqb k' (assoc_set eqb k v l) = assoc eqb k' l.
Proof.
  induction l as [|[k0 v0] l IH]; cbn; intros; [now rewrite eqb_neq' by congruence|].
  destruct (eqb k k0) eqn:E; cbn.
  - apply eqb_eq in E as ->. now rewrite eqb_neq' by congruence.
  - destruct (eqb k' k0); auto.
Qed.

Lemma assoc_set_keys : forall (l : list (K * V)) k v,
  map fst (assoc_set eqb k v l) = if existsb (eqb k) (map fst l) then map fst l else map fst l ++ [k].
Proof.
  induction l as [|[k' v'] l IH]; cbn; intros; [reflexivity|].
  destruct (eqb k k') eqn:E; cbn; [reflexivity|]. rewrite IH.
  destruct (existsb (eqb k) (map fst l)); reflexivity.
Qed.

Lemma existsb_key : forall (l : list K) k, existsb (eqb k) l = true <-> In k l.
Proof.
  intros. rewrite existsb_exists. split.
  - intros [x [H E]]. apply eqb_eq in E as ->. exact H.
  - intro H. exists k. split; [exact H|apply eqb_refl'].
Qed.

Lemma in_assoc_set_keys : forall (l : list (K * V)) k v x,
  In x (map fst (assoc_set eqb k v l)) <-> x = k \/ In x (map fst l).
Proof.
  intros. rewrite assoc_set_keys. destruct (existsb (eqb k) (map fst l)) eqn:E.
  - apply existsb_key in E. split; [tauto|]. intros [->|H]; tauto.
  - rewrite in_app_iff. cbn. split; [intros [H|[H|[]]]; auto|]. intros [->|H]; auto.
Qed.

Lemma nodup_assoc_set : forall (l : list (K * V)) k v, NoDup (map fst l) -> NoDup (map fst (assoc_set eqb k v l)).
Proof.
  intros. rewrite assoc_set_keys. destruct (existsb (eqb k) (map fst l)) eqn:E; [assumption|].
  assert (~ In k (map fst l)) as N. { intro H'. apply existsb_key in H'. congruence. }
  clear E. induction (map fst l) as [|a m IH]; cbn; [repeat constructor; auto|].
  inversion H; subst. constructor; [|apply IH; auto; cbn in N; tauto].
  rewrite in_app_iff. cbn. cbn in N. intros [?|[?|[]]]; subst; tauto.
Qed.

Lemma assoc_del_same : forall (l : list (K * V)) k, assoc eqb k (assoc_del eqb k l) = None.
Proof.
  induction l as [|[k' v'] l IH]; cbn; intros; [reflexivity|].
  destruct (eqb k k') eqn:E; cbn; [auto|rewrite E; auto].
Qed.

Lemma assoc_del_other : forall (l : list (K * V)) k k', k <> k' ->
  assoc eqb k' (assoc_del eqb k l) = assoc eqb k' l.
Proof.
  induction l as [|[k0 v0] l IH]; cbn; intros; [reflexivity|].
  destruct (eqb k k0) eqn:E; cbn.
  - apply eqb_eq in E as ->. rewrite eqb_neq' by congruence. auto.
  - destruct (eqb k' k0); auto.
Qed.

Lemma in_assoc_del : forall (l : list (K * V)) k x, In x (assoc_del eqb k l) <-> In x l /\ fst x <> k.
Proof.
  induction l as [|[k0 v0] l IH]; cbn; intros; [tauto|].
  destruct (eqb k k0) eqn:E; cbn; rewrite IH.
  - apply eqb_eq in E as ->. split; [tauto|]. intros [[H|H] N]; [subst; cbn in N; tauto|tauto].
  - split; [intros [<-|H]; cbn; [split; [tauto|]|tauto]|tauto].
    intros ->. now rewrite eqb_refl' in E.
Qed.

Lemma assoc_del_filter : forall (l : list (K * V)) k,
  assoc_del eqb k l = filter (fun x => negb (eqb k (fst x))) l.
Proof.
  induction l as [|[k0 v0] l IH]; cbn; intros; [reflexivity|].
  destruct (eqb k k0); cbn; rewrite IH; reflexivity.
Qed.
End AssocStr.

(** ** Sorting *)
Section Sorting.
Context {A : Type} (ltb : A -> A -> bool).
Hypothesis ltb_irrefl : forall a, ltb a a = false.
Hypothesis ltb_trans : forall a b c, ltb a b = true -> ltb b c = true -> ltb a c = true.

Lemma insert_perm : forall x l, Permutation (insert ltb x l) (x :: l).
Proof.
  induction l as [|y l IH]; cbn; [auto|]. destruct (ltb y x); [|auto].
  rewrite IH. constructor.
Qed.

Lemma isort_perm : forall l, Permutation (isort ltb l) l.
Proof.
  induction l as [|x l IH]; cbn; [constructor|]. rewrite insert_perm. now constructor.
Qed.

Definition le (a b : A) : Prop := ltb b a = false.

(** Under totality "not less" is transitive. *)
Hypothesis le_trans : forall a b c, le a b -> le b c -> le a c.

Lemma insert_sorted : forall x l, StronglySorted le l -> StronglySorted le (insert ltb x l).
Proof.
  induction l as [|y l IH]; cbn; intro H; [repeat constructor|].
  inversion H; subst. destruct (ltb y x) eqn:E.
  - constructor; [auto|]. rewrite Forall_forall in *. intros z Hz.
    apply (Permutation_in _ (insert_perm x l)) in Hz as [<-|Hz]; [|auto].
    unfold le. destruct (ltb x y) eqn:E'; [|reflexivity].
    rewrite <- (ltb_irrefl x). symmetry. now apply ltb_trans with y.
  - constructor; [assumption|]. constructor; [exact E|].
    rewrite Forall_forall in *. intros z Hz. apply le_trans with y; auto.
Qed.

Lemma isort_sorted : forall l, StronglySorted le (isort ltb l).
Proof. induction l; cbn; [constructor|now apply insert_sorted]. Qed.
End Sorting.

(** Two sorted permutations of each other agree when the order is antisymmetric
    on the elements. *)
Lemma sorted_perm_unique : forall {A} (R : A -> A -> Prop) l1 l2,
  (forall a b, In a l1 -> In b l1 -> R a b -> R b a -> a = b) ->
  StronglySorted R l1 -> StronglySorted R l2 -> Permutation l1 l2 -> l1 = l2.
Proof.
  intros A R. induction l1 as [|x l1 IH]; intros l2 anti S1 S2 P.
  - now apply Permutation_nil in P.
  - destruct l2 as [|y l2]; [symmetry in P; now apply Permutation_nil in P|].
    inversion S1; subst. inversion S2; subst. rewrite Forall_forall in *.
    assert (x = y) as ->.
    { assert (In y (x :: l1)) as Hy by (eapply Permutation_in; [symmetry; exact P|left; reflexivity]).
      assert (In x (y :: l2)) as Hx by (eapply Permutation_in; [exact P|left; reflexivity]).
      destruct Hy as [->|Hy]; [reflexivity|]. destruct Hx as [->|Hx]; [reflexivity|].
      apply anti; auto; [now left|now right]. }
    f_equal. apply IH; auto.
    + intros a b Ha Hb. apply anti; now right.
    + eapply Permutation_cons_inv; exact P.
Qed.

Lemma str_le_trans : forall a b c, le str_ltb a b -> le str_ltb b c -> le str_ltb a c.
Proof.
  unfold le. intros a b c H1 H2. destruct (str_ltb c a) eqn:E; [|reflexivity].
  destruct (str_ltb b a) eqn:E1; [discriminate|].
  destruct (str_ltb a b) eqn:E2.
  - rewrite (str_ltb_trans c a b) in H2; congruence.
  - rewrite (str_ltb_total a b E2 E1) in *. congruence.
Qed.

Lemma sort_strings_perm : forall l, Permutation (sort_strings l) l.
Proof. intro. apply isort_perm. Qed.

Lemma sort_strings_sorted : forall l, StronglySorted (le str_ltb) (sort_strings l).
Proof.
  intro. apply isort_sorted; [apply str_ltb_irrefl|apply str_ltb_trans|apply str_le_trans].
Qed.

Lemma sort_strings_permutation : forall l1 l2, Permutation l1 l2 -> sort_strings l1 = sort_strings l2.
Proof.
  intros. apply sorted_perm_unique with (R := le str_ltb); try apply sort_strings_sorted.
  - intros a b _ _ H1 H2. now apply str_ltb_total.
  - rewrite !sort_strings_perm. assumption.
Qed.

(** ** split / join *)
Lemma split_nonempty : forall sep s, split sep s <> [].
Proof.
  induction s as [|c s IH]; cbn; [discriminate|].
  destruct (c =? sep); [discriminate|]. destruct (split sep s); discriminate.
Qed.

Lemma split_no_sep : forall sep s, Forall (fun w => ~ In sep w) (split sep s).
Proof.
  induction s as [|c s IH]; cbn; [repeat constructor; auto|].
  destruct (c =? sep) eqn:E; [constructor; auto|].
  apply Z.eqb_neq in E. destruct (split sep s) as [|w ws]; inversion IH; subst;
    repeat constructor; auto; cbn; intuition.
Qed.

Lemma join_split : forall sep s, join [sep] (split sep s) = s.
Proof.
  induction s as [|c s IH]; [reflexivity|]. cbn [split].
  pose proof (split_nonempty sep s). destruct (c =? sep) eqn:E.
  - apply Z.eqb_eq in E as ->. cbn. destruct (split sep s); [congruence|]. now rewrite IH.
  - destruct (split sep s) as [|w ws]; [congruence|]. destruct ws; cbn in *; now rewrite IH.
Qed.

Lemma split_app_no_sep : forall sep w s, ~ In sep w ->
  split sep (w ++ s) = match split sep s with [] => [w] | x :: xs => (w ++ x) :: xs end.
Proof.
  induction w as [|c w IH]; cbn; intros s H.
  - destruct (split sep s) eqn:E; [now apply split_nonempty in E|reflexivity].
  - destruct (c =? sep) eqn:E; [apply Z.eqb_eq in E; subst; tauto|].
    rewrite IH by tauto. destruct (split sep s); reflexivity.
Qed.

Lemma split_single : forall sep w, ~ In sep w -> split sep w = [w].
Proof.
  intros. rewrite <- (app_nil_r w) at 1. rewrite split_app_no_sep by assumption. cbn. now rewrite app_nil_r.
Qed.

Lemma split_join : forall sep ws, ws <> [] -> Forall (fun w => ~ In sep w) ws ->
  split sep (join [sep] ws) = ws.
Proof.
  induction ws as [|w ws IH]; [congruence|]. intros _ H. inversion H; subst.
  destruct ws as [|w' ws]; [now apply split_single|].
  change (join [sep] (w :: w' :: ws)) with (w ++ [sep] ++ join [sep] (w' :: ws)).
  rewrite split_app_no_sep by assumption. cbn [app split]. rewrite Z.eqb_refl.
  rewrite IH; [now rewrite app_nil_r|discriminate|assumption].
Qed.

Lemma skipn_skipn : forall A (x y : nat) (l : list A), skipn x (skipn y l) = skipn (x + y) l.
Proof.
  intros A x y. revert x. induction y as [|y IH]; intros x l; [now rewrite Nat.add_0_r|].
  destruct l; [now rewrite !skipn_nil|]. cbn [skipn]. rewrite IH.
  now replace (x + S y)%nat with (S (x + y)) by lia.
Qed.
