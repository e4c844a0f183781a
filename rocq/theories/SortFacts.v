(** * sort.Slice sorts: facts about GoSort *)
From Coq Require Import Permutation Sorted.
From Verif Require Import Base GoSort.

Section Facts.
Context {A : Type}.
Variable key : A -> Z.
Let lt (x y : A) : bool := key x <? key y.

Definition at_ (l : list A) (i : nat) : Z := match nth_error l i with Some x => key x | None => 0 end.

Lemma set_nth_length : forall i x (l : list A), length (set_nth i x l) = length l.
Proof. intros i x l. revert i. induction l as [|y l IH]; intros [|i]; cbn [set_nth length]; try reflexivity. rewrite IH. reflexivity. Qed.
Lemma set_nth_nth : forall i x (l : list A) k, (i < length l)%nat ->
  nth_error (set_nth i x l) k = if (k =? i)%nat then Some x else nth_error l k.
Proof.
  intros i x l. revert i. induction l as [|y l IH]; intros [|i] [|k] H; cbn [set_nth nth_error length Nat.eqb] in *; try lia; try reflexivity.
  apply IH. lia.
Qed.
Lemma swap_length : forall (l : list A) i j, length (swap l i j) = length l.
Proof. intros l i j. unfold swap. destruct (nth_error l i); [|reflexivity]. destruct (nth_error l j); [|reflexivity]. rewrite !set_nth_length. reflexivity. Qed.
Lemma swap_nth : forall (l : list A) i j k, (i < length l)%nat -> (j < length l)%nat ->
  nth_error (swap l i j) k = nth_error l (if (k =? i)%nat then j else if (k =? j)%nat then i else k).
Proof.
  intros l i j k Hi Hj. unfold swap. destruct (nth_error l i) as [x|] eqn:X. 2:{ apply nth_error_None in X. lia. }
  destruct (nth_error l j) as [y|] eqn:Y. 2:{ apply nth_error_None in Y. lia. }
  rewrite set_nth_nth by (rewrite set_nth_length; exact Hi). rewrite set_nth_nth by exact Hj.
  destruct (Nat.eqb_spec k i); [symmetry; exact Y|]. destruct (Nat.eqb_spec k j); [symmetry; exact X|]. reflexivity.
Qed.
Lemma swap_at : forall (l : list A) i j k, (i < length l)%nat -> (j < length l)%nat ->
  at_ (swap l i j) k = at_ l (if (k =? i)%nat then j else if (k =? j)%nat then i else k).
Proof. intros l i j k Hi Hj. unfold at_. rewrite swap_nth by assumption. reflexivity. Qed.
Lemma less_at : forall l i j, (i < length l)%nat -> (j < length l)%nat -> less lt l i j = (at_ l i <? at_ l j).
Proof.
  intros l i j Hi Hj. unfold less, at_. destruct (nth_error l i) eqn:X. 2:{ apply nth_error_None in X. lia. }
  destruct (nth_error l j) eqn:Y. 2:{ apply nth_error_None in Y. lia. } reflexivity.
Qed.

Lemma set_nth_split : forall i x (l : list A), (i < length l)%nat -> set_nth i x l = firstn i l ++ x :: skipn (S i) l.
Proof.
  intros i x l. revert i. induction l as [|y l IH]; intros [|i] H; cbn [length] in H; try lia; [reflexivity|].
  cbn [set_nth firstn skipn app]. f_equal. rewrite IH by lia. reflexivity.
Qed.
Lemma swap_perm : forall (l : list A) i j, Permutation (swap l i j) l.
Proof.
  intros l i j. unfold swap. destruct (nth_error l i) as [x|] eqn:X; [|reflexivity].
  destruct (nth_error l j) as [y|] eqn:Y; [|reflexivity].
  revert i j X Y. induction l as [|z l IH]; intros i j X Y; [destruct i; discriminate|].
  destruct i as [|i], j as [|j]; cbn [nth_error set_nth] in *.
  - injection X as ->. injection Y as ->. reflexivity.
  - injection X as ->. assert (H : (j < length l)%nat) by (apply nth_error_Some; congruence).
    rewrite set_nth_split by exact H. rewrite <- (firstn_skipn j l) at 3.
    assert (Q : skipn j l = y :: skipn (S j) l).
    { clear -Y. revert j Y. induction l as [|w l IH]; intros [|j] Y; try discriminate; [injection Y as ->; reflexivity|]. apply (IH j Y). }
    rewrite Q. rewrite (Permutation_app_comm (firstn j l) (x :: _)). cbn [app]. rewrite perm_swap. apply perm_skip.
    rewrite (Permutation_app_comm (skipn (S j) l)). apply Permutation_middle.
  - injection Y as ->. assert (H : (i < length l)%nat) by (apply nth_error_Some; congruence).
    rewrite set_nth_split by exact H. rewrite <- (firstn_skipn i l) at 3.
    assert (Q : skipn i l = x :: skipn (S i) l).
    { clear -X. revert i X. induction l as [|w l IH]; intros [|j] X; try discriminate; [injection X as ->; reflexivity|]. apply (IH j X). }
    rewrite Q. rewrite (Permutation_app_comm (firstn i l) (y :: _)). cbn [app]. rewrite perm_swap. apply perm_skip.
    rewrite (Permutation_app_comm (skipn (S i) l)). apply Permutation_middle.
  - apply perm_skip. apply IH; assumption.
Qed.

(** ** Rearranging the part from [a] up to [b] *)
Record within (a b : nat) (l l' : list A) : Prop := Within {
  w_perm : Permutation l' l;
  w_out : forall k, (k < a \/ b <= k)%nat -> nth_error l' k = nth_error l k;
  w_in : forall k, (a <= k < b)%nat -> exists k', (a <= k' < b)%nat /\ nth_error l' k = nth_error l k' }.
Lemma within_refl : forall a b l, within a b l l.
Proof. intros a b l. constructor; [reflexivity|reflexivity|]. intros k K. exists k. split; [exact K|reflexivity]. Qed.
Lemma within_trans : forall a b l m n, within a b l m -> within a b m n -> within a b l n.
Proof.
  intros a b l m n [P O I] [P' O' I']. constructor; [rewrite P'; exact P| |].
  - intros k K. rewrite (O' k K). apply O; exact K.
  - intros k K. destruct (I' k K) as (k1 & K1 & E1). destruct (I k1 K1) as (k2 & K2 & E2). exists k2. split; [exact K2|]. rewrite E1. exact E2.
Qed.
Lemma within_wider : forall a b a' b' l m, (a' <= a)%nat -> (b <= b')%nat -> within a b l m -> within a' b' l m.
Proof.
  intros a b a' b' l m Ha Hb [P O I]. constructor; [exact P| |].
  - intros k K. apply O. lia.
  - intros k K. destruct (Nat.lt_ge_cases k a) as [L|G]; [exists k; split; [exact K|apply O; lia]|].
    destruct (Nat.lt_ge_cases k b) as [L|G']; [|exists k; split; [exact K|apply O; lia]].
    destruct (I k ltac:(lia)) as (k1 & K1 & E1). exists k1. split; [lia|exact E1].
Qed.
Lemma within_swap : forall a b l i j, (a <= i < b)%nat -> (a <= j < b)%nat -> (b <= length l)%nat -> within a b l (swap l i j).
Proof.
  intros a b l i j Hi Hj Hb. constructor; [apply swap_perm| |].
  - intros k K. rewrite swap_nth by lia. destruct (Nat.eqb_spec k i); [lia|]. destruct (Nat.eqb_spec k j); [lia|]. reflexivity.
  - intros k K. rewrite swap_nth by lia. eexists; split; [|reflexivity]. destruct (k =? i)%nat, (k =? j)%nat; lia.
Qed.
Lemma within_length : forall a b l m, within a b l m -> length m = length l.
Proof. intros a b l m [P _ _]. apply Permutation_length. exact P. Qed.
Lemma within_out : forall a b l m k, within a b l m -> (k < a \/ b <= k)%nat -> at_ m k = at_ l k.
Proof. intros a b l m k [_ O _] K. unfold at_. rewrite (O k K). reflexivity. Qed.
Lemma within_in : forall a b l m k, within a b l m -> (a <= k < b)%nat -> exists k', (a <= k' < b)%nat /\ at_ m k = at_ l k'.
Proof. intros a b l m k [_ _ I] K. destruct (I k K) as (k1 & K1 & E1). exists k1. split; [exact K1|]. unfold at_. rewrite E1. reflexivity. Qed.

Definition srt (a b : nat) (l : list A) : Prop := forall i j, (a <= i)%nat -> (i < j)%nat -> (j < b)%nat -> at_ l i <= at_ l j.

(** ** Insertion sort *)
Lemma insert_down_within : forall n l a j b, (a <= j < b)%nat -> (b <= length l)%nat -> within a b l (insert_down lt n l a j).
Proof.
  induction n as [|n IH]; intros l a j b J B; cbn [insert_down]; [apply within_refl|].
  destruct (Nat.ltb_spec a j); cbn [andb]; [|apply within_refl]. destruct (less lt l j (j - 1)); [|apply within_refl].
  eapply within_trans; [apply within_swap with (i := j) (j := (j-1)%nat); lia|]. apply IH; [lia|rewrite swap_length; exact B].
Qed.
Lemma insert_down_sorts : forall n l a j i, (a <= j <= i)%nat -> (i < length l)%nat -> (j <= n)%nat ->
  (forall p q, (a <= p)%nat -> (p < q)%nat -> (q <= i)%nat -> p <> j -> q <> j -> at_ l p <= at_ l q) ->
  (forall q, (j < q)%nat -> (q <= i)%nat -> at_ l j <= at_ l q) ->
  srt a (S i) (insert_down lt n l a j).
Proof.
  induction n as [|n IH]; intros l a j i J B N S1 S2; cbn [insert_down].
  { intros p q P PQ Q. destruct (Nat.eq_dec p j) as [->|Np]; [apply S2; lia|]. destruct (Nat.eq_dec q j) as [->|Nq]; [lia|]. apply S1; lia. }
  destruct (Nat.ltb_spec a j); cbn [andb].
  2:{ intros p q P PQ Q. destruct (Nat.eq_dec p j) as [->|Np]; [apply S2; lia|]. destruct (Nat.eq_dec q j) as [->|Nq]; [lia|]. apply S1; lia. }
  rewrite less_at by lia. destruct (Z.ltb_spec (at_ l j) (at_ l (j - 1))).
  - apply IH; [lia|rewrite swap_length; exact B|lia| |].
    + intros p q P PQ Q Np Nq. rewrite !swap_at by lia.
      destruct (Nat.eqb_spec p j) as [->|]; destruct (Nat.eqb_spec q j) as [->|];
        repeat match goal with |- context [(?x =? ?y)%nat] => destruct (Nat.eqb_spec x y) end; subst; try lia; try (apply S1; lia).
    + intros q Q1 Q2. rewrite !swap_at by lia.
      repeat match goal with |- context [(?x =? ?y)%nat] => destruct (Nat.eqb_spec x y) end; subst; try lia; try (apply S2; lia).
  - intros p q P PQ Q. destruct (Nat.eq_dec p j) as [->|Np]; [apply S2; lia|]. destruct (Nat.eq_dec q j) as [->|Nq]; [|apply S1; lia].
    destruct (Nat.eq_dec p (j - 1)) as [->|]; [assumption|]. pose proof (S1 p (j - 1)%nat ltac:(lia) ltac:(lia) ltac:(lia) ltac:(lia) ltac:(lia)). lia.
Qed.
Lemma insertions_sorts : forall n l a i, (a < i)%nat -> (i + n <= length l)%nat -> srt a i l ->
  srt a (i + n) (insertions lt n l a i) /\ within a (i + n) l (insertions lt n l a i).
Proof.
  induction n as [|n IH]; intros l a i I B So; cbn [insertions].
  { rewrite Nat.add_0_r. split; [exact So|apply within_refl]. }
  assert (W : within a (S i) l (insert_down lt i l a i)) by (apply insert_down_within; lia).
  destruct (IH (insert_down lt i l a i) a (S i)) as [So' W']; [lia|rewrite (within_length _ _ _ _ W); lia| |].
  - apply insert_down_sorts; try lia. intros p q P PQ Q Np Nq. apply So; lia.
  - replace (i + S n)%nat with (S i + n)%nat by lia. split; [exact So'|].
    eapply within_trans; [|exact W']. eapply within_wider; [| |exact W]; lia.
Qed.
Lemma insertionSort_sorts : forall l a b, (b <= length l)%nat ->
  srt a b (insertionSort lt l a b) /\ within a b l (insertionSort lt l a b).
Proof.
  intros l a b B. unfold insertionSort. destruct (Nat.lt_ge_cases a b) as [L|G].
  - pose proof (insertions_sorts (b - (a + 1)) l a (a + 1)) as K. replace (a + 1 + (b - (a + 1)))%nat with b in K by lia.
    apply K; [lia|lia|]. intros i j. lia.
  - replace (b - (a + 1))%nat with 0%nat by lia. cbn [insertions]. split; [intros i j; lia|apply within_refl].
Qed.
Lemma shell_within : forall n l a i b, (a + 6 <= i)%nat -> (i + n <= b)%nat -> (b <= length l)%nat -> within a b l (shell lt n l i).
Proof.
  induction n as [|n IH]; intros l a i b I B L; cbn [shell]; [apply within_refl|].
  assert (W : within a b l (swap_if (less lt l i (i - 6)) l i (i - 6))).
  { unfold swap_if. destruct (less lt l i (i - 6)); [apply within_swap; lia|apply within_refl]. }
  eapply within_trans; [exact W|]. apply IH; [lia|lia|rewrite (within_length _ _ _ _ W); exact L].
Qed.
Lemma short_sort_sorts : forall l a b, (b <= length l)%nat -> srt a b (short_sort lt l a b) /\ within a b l (short_sort lt l a b).
Proof.
  intros l a b B. unfold short_sort. destruct (Nat.ltb_spec 1 (b - a)).
  - assert (W : within a b l (shell lt (b - (a + 6)) l (a + 6))).
    { destruct (Nat.le_gt_cases (a + 6) b); [apply shell_within; lia|]. replace (b - (a + 6))%nat with 0%nat by lia. apply within_refl. }
    destruct (insertionSort_sorts (shell lt (b - (a + 6)) l (a + 6)) a b) as [So W']; [rewrite (within_length _ _ _ _ W); exact B|].
    split; [exact So|]. eapply within_trans; eassumption.
  - split; [intros i j; lia|apply within_refl].
Qed.

(** ** Heap sort *)
Definition ht (first : nat) (l : list A) (i : nat) : Z := at_ l (first + i).
Definition child (i c : nat) : Prop := (c = 2 * i + 1 \/ c = 2 * i + 2)%nat.
Definition heap (lo hi first : nat) (l : list A) : Prop :=
  forall i c, (lo <= i)%nat -> child i c -> (c < hi)%nat -> ht first l c <= ht first l i.

Lemma swap_ht : forall l first i j k, (first + i < length l)%nat -> (first + j < length l)%nat ->
  ht first (swap l (first + i) (first + j)) k = ht first l (if (k =? i)%nat then j else if (k =? j)%nat then i else k).
Proof.
  intros l first i j k Hi Hj. unfold ht. rewrite swap_at by assumption. f_equal.
  destruct (Nat.eqb_spec (first + k) (first + i)), (Nat.eqb_spec k i); try lia.
  destruct (Nat.eqb_spec (first + k) (first + j)), (Nat.eqb_spec k j); lia.
Qed.
Lemma siftDown_within : forall n l root hi first, (root < hi)%nat -> (first + hi <= length l)%nat ->
  within first (first + hi) l (siftDown lt n l root hi first).
Proof.
  induction n as [|n IH]; intros l root hi first R B; cbn [siftDown]; [apply within_refl|]. cbv zeta.
  destruct (Nat.leb_spec hi (2 * root + 1)); [apply within_refl|].
  match goal with |- within _ _ _ (if negb (less lt l _ (first + ?x)) then _ else _) => set (c := x) end.
  assert (C : (c < hi)%nat).
  { unfold c. destruct (Nat.ltb_spec (2 * root + 1 + 1) hi); cbn [andb]; [|assumption]. destruct (less lt l _ _); [exact H0|assumption]. }
  destruct (less lt l (first + root) (first + c)); cbn [negb]; [|apply within_refl].
  eapply within_trans; [apply within_swap with (i := (first + root)%nat) (j := (first + c)%nat); lia|].
  apply IH; [exact C|rewrite swap_length; exact B].
Qed.
Lemma siftDown_heap : forall n l lo root hi first, (lo <= root)%nat -> (hi <= root + n)%nat -> (first + hi <= length l)%nat ->
  (forall i c, (lo <= i)%nat -> i <> root -> child i c -> (c < hi)%nat -> ht first l c <= ht first l i) ->
  (forall p c, (lo <= p)%nat -> child p root -> child root c -> (c < hi)%nat -> ht first l c <= ht first l p) ->
  heap lo hi first (siftDown lt n l root hi first).
Proof.
  induction n as [|n IH]; intros l lo root hi first R F B H1 H2; cbn [siftDown].
  { intros i c I C Ch. destruct (Nat.eq_dec i root) as [->|N]; [unfold child in C; lia|]. apply H1; assumption. }
  cbv zeta. destruct (Nat.leb_spec hi (2 * root + 1)) as [L|L].
  { intros i c I C Ch. destruct (Nat.eq_dec i root) as [->|N]; [unfold child in C; lia|]. apply H1; assumption. }
  match goal with |- heap _ _ _ (if negb (less lt l _ (first + ?x)) then _ else _) => set (c := x) end.
  assert (C : child root c /\ (c < hi)%nat /\ forall c', child root c' -> (c' < hi)%nat -> ht first l c' <= ht first l c).
  { unfold c, child, ht. destruct (Nat.ltb_spec (2 * root + 1 + 1) hi); cbn [andb].
    - rewrite less_at by lia. replace (first + (2 * root + 1) + 1)%nat with (first + (2 * root + 1 + 1))%nat by lia.
      destruct (Z.ltb_spec (at_ l (first + (2 * root + 1))) (at_ l (first + (2 * root + 1 + 1)))); (split; [lia|]); (split; [lia|]);
        intros c' [->| ->] Hc; replace (2 * root + 2)%nat with (2 * root + 1 + 1)%nat by lia; lia.
    - split; [lia|]. split; [lia|]. intros c' [->| ->] Hc; [lia|]. lia. }
  destruct C as (C1 & C2 & C3). rewrite less_at by (unfold child in *; lia). fold (ht first l root) (ht first l c).
  destruct (Z.ltb_spec (ht first l root) (ht first l c)) as [Lt|Ge]; cbn [negb].
  - apply IH; [unfold child in *; lia|unfold child in *; lia|rewrite swap_length; exact B| |].
    + intros i d I N D Dh. rewrite !swap_ht by (unfold child in *; lia).
      destruct (Nat.eqb_spec i root) as [->|Ni].
      * destruct (Nat.eqb_spec d root) as [->|Nd]; [unfold child in *; lia|].
        destruct (Nat.eqb_spec d c) as [->|Nc]; [lia|]. apply C3; assumption.
      * destruct (Nat.eqb_spec i c); [contradiction|].
        destruct (Nat.eqb_spec d root) as [->|Nd].
        -- apply H2; assumption.
        -- destruct (Nat.eqb_spec d c) as [->|Nc]; [unfold child in *; lia|]. apply H1; assumption.
    + intros p d P Pc D Dh. rewrite !swap_ht by (unfold child in *; lia).
      assert (p = root) as -> by (unfold child in *; lia). rewrite Nat.eqb_refl.
      destruct (Nat.eqb_spec d root); [unfold child in *; lia|]. destruct (Nat.eqb_spec d c); [unfold child in *; lia|].
      apply H1; try assumption; unfold child in *; lia.
  - intros i d I D Dh. destruct (Nat.eq_dec i root) as [->|N]; [|apply H1; assumption]. pose proof (C3 d D Dh). lia.
Qed.
Lemma heap_up_heap : forall i l hi first, (i < hi)%nat -> (first + hi <= length l)%nat -> heap (S i) hi first l ->
  heap 0 hi first (heap_up lt i l hi first) /\ within first (first + hi) l (heap_up lt i l hi first).
Proof.
  induction i as [|i IH]; intros l hi first I B H; cbn [heap_up].
  - split; [|apply siftDown_within; assumption].
    apply siftDown_heap; [lia|lia|assumption| |].
    + intros i c _ N C Ch. apply H; [lia|assumption|assumption].
    + intros p c _ P. unfold child in P. lia.
  - assert (W : within first (first + hi) l (siftDown lt (S hi) l (S i) hi first)) by (apply siftDown_within; assumption).
    destruct (IH (siftDown lt (S hi) l (S i) hi first) hi first) as [H' W']; [lia|rewrite (within_length _ _ _ _ W); exact B| |].
    + apply siftDown_heap; [lia|lia|assumption| |].
      * intros j c J N C Ch. apply H; [lia|assumption|assumption].
      * intros p c P Pc. unfold child in Pc. lia.
    + split; [exact H'|]. eapply within_trans; eassumption.
Qed.
Lemma heap_top : forall hi first l, heap 0 hi first l -> forall k, (k < hi)%nat -> ht first l k <= ht first l 0.
Proof.
  intros hi first l H k. induction k as [k IH] using (well_founded_induction lt_wf). intros K.
  destruct (Nat.eq_dec k 0) as [->|N]; [lia|].
  pose proof (Nat.div_mod (k - 1) 2 ltac:(lia)) as D. pose proof (Nat.mod_upper_bound (k - 1) 2 ltac:(lia)) as M.
  set (p := ((k - 1) / 2)%nat) in *. specialize (IH p ltac:(lia) ltac:(lia)).
  specialize (H p k ltac:(lia) ltac:(unfold child; lia) K). lia.
Qed.
Lemma heap_pop_sorts : forall n l first hi, (n <= hi)%nat -> (first + hi <= length l)%nat -> heap 0 n first l ->
  srt (first + n) (first + hi) l -> (forall i j, (i < n)%nat -> (n <= j)%nat -> (j < hi)%nat -> ht first l i <= ht first l j) ->
  srt first (first + hi) (heap_pop lt n l first) /\ within first (first + hi) l (heap_pop lt n l first).
Proof.
  induction n as [|n IH]; intros l first hi N B H So Le; cbn [heap_pop].
  { rewrite Nat.add_0_r in So. split; [exact So|apply within_refl]. }
  set (l1 := swap l first (first + n)).
  assert (Q : forall k, ht first l1 k = ht first l (if (k =? 0)%nat then n else if (k =? n)%nat then O else k)).
  { intro k. unfold l1. replace first with (first + 0)%nat at 2 by lia. apply swap_ht; lia. }
  assert (W1 : within first (first + hi) l l1) by (apply within_swap; lia).
  assert (W2 : within first (first + n) l1 (siftDown lt (S n) l1 0 n first)).
  { destruct n as [|n]; [cbn; apply within_refl|]. apply siftDown_within; [lia|]. rewrite (within_length _ _ _ _ W1). lia. }
  assert (Hp : heap 0 n first (siftDown lt (S n) l1 0 n first)).
  { apply siftDown_heap; [lia|lia|rewrite (within_length _ _ _ _ W1); lia| |].
    - intros i c _ Ni C Ch. rewrite !Q. destruct (Nat.eqb_spec i 0); [contradiction|]. destruct (Nat.eqb_spec i n); [unfold child in C; lia|].
      destruct (Nat.eqb_spec c 0); [unfold child in C; lia|]. destruct (Nat.eqb_spec c n); [lia|]. apply H; [lia|assumption|lia].
    - intros p c _ P. unfold child in P. lia. }
  set (l2 := siftDown lt (S n) l1 0 n first) in *.
  assert (Top : forall k, (k < n)%nat -> ht first l1 k <= ht first l1 n).
  { intros k K. rewrite !Q. destruct (Nat.eqb_spec n 0); [lia|]. rewrite Nat.eqb_refl.
    apply heap_top with (hi := S n); [exact H|]. destruct (Nat.eqb_spec k 0); [lia|]. destruct (Nat.eqb_spec k n); lia. }
  assert (Hi2 : forall k, (n <= k)%nat -> ht first l2 k = ht first l1 k).
  { intros k K. unfold ht. apply (within_out _ _ _ _ _ W2). lia. }
  assert (Lo2 : forall k, (k < n)%nat -> exists k', (k' < n)%nat /\ ht first l2 k = ht first l1 k').
  { intros k K. destruct (within_in _ _ _ _ (first + k) W2 ltac:(lia)) as (k' & K' & E). exists (k' - first)%nat. split; [lia|].
    unfold ht. rewrite E. f_equal. lia. }
  assert (Hi1 : forall k, (n < k)%nat -> (k < hi)%nat -> ht first l1 k = ht first l k).
  { intros k K Kh. rewrite Q. destruct (Nat.eqb_spec k 0); [lia|]. destruct (Nat.eqb_spec k n); [lia|]. reflexivity. }
  assert (All1 : forall i j, (i <= n)%nat -> (n < j)%nat -> (j < hi)%nat -> ht first l1 i <= ht first l1 j).
  { intros i j I J Jh. rewrite (Hi1 j J Jh). rewrite Q. apply Le; [|lia|exact Jh]. destruct (i =? 0)%nat, (Nat.eqb_spec i n); lia. }
  destruct (IH l2 first hi) as [S' W']; [lia|rewrite (within_length _ _ _ _ W2), (within_length _ _ _ _ W1); exact B|exact Hp| | |].
  - intros i j I J Jh. replace i with (first + (i - first))%nat by lia. replace j with (first + (j - first))%nat by lia.
    fold (ht first l2 (i - first)) (ht first l2 (j - first)). rewrite !Hi2 by lia.
    destruct (Nat.eq_dec (i - first) n) as [E|E]; [rewrite E; apply All1; lia|]. rewrite !Hi1 by lia.
    unfold ht. replace (first + (i - first))%nat with i by lia. replace (first + (j - first))%nat with j by lia. apply So; lia.
  - intros i j I J Jh. rewrite (Hi2 j J). destruct (Lo2 i I) as (k & K & ->).
    destruct (Nat.eq_dec j n) as [->|E]; [apply Top; exact K|]. apply All1; lia.
  - split; [exact S'|]. eapply within_trans; [exact W1|]. eapply within_trans; [|exact W']. eapply within_wider; [| |exact W2]; lia.
Qed.
Lemma heapSort_sorts : forall l a b, (a < b)%nat -> (b <= length l)%nat ->
  srt a b (heapSort lt l a b) /\ within a b l (heapSort lt l a b).
Proof.
  intros l a b L B. unfold heapSort.
  pose proof (Nat.div_mod (b - a - 1) 2 ltac:(lia)) as D. pose proof (Nat.mod_upper_bound (b - a - 1) 2 ltac:(lia)) as M.
  set (i := ((b - a - 1) / 2)%nat) in *.
  destruct (heap_up_heap i l (b - a) a) as [H W]; [lia|lia| |].
  { intros j c J C Ch. unfold child in C. lia. }
  set (l1 := heap_up lt i l (b - a) a) in *.
  destruct (heap_pop_sorts (b - a) l1 a (b - a)) as [S' W']; [lia|rewrite (within_length _ _ _ _ W); lia|exact H| | |].
  - intros p q. lia.
  - intros p q. lia.
  - replace (a + (b - a))%nat with b in * by lia. split; [exact S'|]. eapply within_trans; eassumption.
Qed.

(** ** Partitioning *)
Lemma up_while_spec : forall n p i lim, (lim - i <= n)%nat ->
  let r := up_while n p i lim in
  (i <= r)%nat /\ (r <= Nat.max i lim)%nat /\ (forall k, (i <= k < r)%nat -> p k = true) /\ ((lim <= r)%nat \/ p r = false).
Proof.
  induction n as [|n IH]; intros p i lim N; cbn [up_while]; cbv zeta.
  { split; [lia|]. split; [lia|]. split; [intros; lia|]. left. lia. }
  destruct (Nat.ltb_spec i lim); cbn [andb].
  2:{ split; [lia|]. split; [lia|]. split; [intros; lia|]. left. lia. }
  destruct (p i) eqn:P.
  2:{ split; [lia|]. split; [lia|]. split; [intros; lia|]. right. exact P. }
  destruct (IH p (S i) lim ltac:(lia)) as (H1 & H2 & H3 & H4). split; [lia|]. split; [lia|]. split; [|exact H4].
  intros k K. destruct (Nat.eq_dec k i) as [->|]; [exact P|]. apply H3. lia.
Qed.
Lemma down_while_spec : forall n p i lim, (i - lim <= n)%nat ->
  let r := down_while n p i lim in
  (r <= i)%nat /\ (Nat.min i lim <= r)%nat /\ (forall k, (r <= k < i)%nat -> p k = true) /\ ((r <= lim)%nat \/ p (r - 1)%nat = false).
Proof.
  induction n as [|n IH]; intros p i lim N; cbn [down_while]; cbv zeta.
  { split; [lia|]. split; [lia|]. split; [intros; lia|]. left. lia. }
  destruct (Nat.ltb_spec lim i); cbn [andb].
  2:{ split; [lia|]. split; [lia|]. split; [intros; lia|]. left. lia. }
  destruct (p (i - 1)%nat) eqn:P.
  2:{ split; [lia|]. split; [lia|]. split; [intros; lia|]. right. exact P. }
  destruct (IH p (i - 1)%nat lim ltac:(lia)) as (H1 & H2 & H3 & H4). split; [lia|]. split; [lia|]. split; [|exact H4].
  intros k K. destruct (Nat.eq_dec k (i - 1)) as [->|]; [exact P|]. apply H3. lia.
Qed.
Lemma partition_spec : forall n l pivot b c, (pivot < b)%nat -> (b <= c)%nat -> (c <= length l)%nat -> (c - b <= n)%nat ->
  let '(l', b', c') := partition lt n l pivot b c in
  b' = c' /\ (b <= b' <= c)%nat /\ within b c l l' /\
  (forall k, (b <= k < b')%nat -> at_ l' k <= at_ l pivot) /\ (forall k, (b' <= k < c)%nat -> at_ l pivot < at_ l' k).
Proof.
  induction n as [|n IH]; intros l pivot b c P B L N; cbn [partition].
  { split; [lia|]. split; [lia|]. split; [apply within_refl|]. split; intros; lia. }
  pose proof (up_while_spec (S n) (fun i => negb (less lt l pivot i)) b c N) as U. cbv zeta in U.
  set (b1 := up_while (S n) (fun i => negb (less lt l pivot i)) b c) in *. destruct U as (U1 & U2 & U3 & U4).
  pose proof (down_while_spec (S n) (fun i => less lt l pivot i) c b1 ltac:(lia)) as D. cbv zeta in D.
  set (c1 := down_while (S n) (fun i => less lt l pivot i) c b1) in *. destruct D as (D1 & D2 & D3 & D4).
  assert (Lo : forall k, (b <= k < b1)%nat -> at_ l k <= at_ l pivot).
  { intros k K. specialize (U3 k K). cbv beta in U3. rewrite less_at in U3 by lia. apply negb_true_iff, Z.ltb_ge in U3. exact U3. }
  assert (Hi : forall k, (c1 <= k < c)%nat -> at_ l pivot < at_ l k).
  { intros k K. specialize (D3 k K). cbv beta in D3. rewrite less_at in D3 by lia. apply Z.ltb_lt in D3. exact D3. }
  destruct (Nat.leb_spec c1 b1) as [E|E].
  { split; [lia|]. split; [lia|]. split; [apply within_refl|]. split; [exact Lo|]. intros k K. apply Hi. lia. }
  destruct U4 as [U4|U4]; [lia|]. destruct D4 as [D4|D4]; [lia|]. cbv beta in U4, D4.
  rewrite less_at in U4, D4 by lia. apply negb_false_iff, Z.ltb_lt in U4. apply Z.ltb_ge in D4.
  assert (Ne : b1 <> (c1 - 1)%nat) by (intros Q; rewrite <- Q in D4; lia).
  assert (W1 : within b c l (swap l b1 (c1 - 1))) by (apply within_swap; lia).
  assert (Q : forall k, at_ (swap l b1 (c1 - 1)) k = at_ l (if (k =? b1)%nat then c1 - 1 else if (k =? c1 - 1)%nat then b1 else k)%nat)
    by (intro k; apply swap_at; lia).
  specialize (IH (swap l b1 (c1 - 1)) pivot (S b1) (c1 - 1)%nat ltac:(lia) ltac:(lia) ltac:(rewrite swap_length; lia) ltac:(lia)).
  destruct (partition lt n (swap l b1 (c1 - 1)) pivot (S b1) (c1 - 1)) as [[l' b'] c']. destruct IH as (I1 & I2 & I3 & I4 & I5).
  assert (Pv : at_ (swap l b1 (c1 - 1)) pivot = at_ l pivot).
  { rewrite Q. destruct (Nat.eqb_spec pivot b1); [lia|]. destruct (Nat.eqb_spec pivot (c1 - 1)); [lia|]. reflexivity. }
  rewrite Pv in I4, I5. split; [exact I1|]. split; [lia|].
  split; [eapply within_trans; [exact W1|]; eapply within_wider; [| |exact I3]; lia|].
  split; intros k K.
  - destruct (Nat.lt_ge_cases k (S b1)) as [Lk|Gk]; [|apply I4; lia]. rewrite (within_out _ _ _ _ k I3) by lia. rewrite Q.
    destruct (Nat.eqb_spec k b1); [exact D4|]. destruct (Nat.eqb_spec k (c1 - 1)); [lia|]. apply Lo. lia.
  - destruct (Nat.lt_ge_cases k (c1 - 1)) as [Lk|Gk]; [apply I5; lia|]. rewrite (within_out _ _ _ _ k I3) by lia. rewrite Q.
    destruct (Nat.eqb_spec k b1); [lia|]. destruct (Nat.eqb_spec k (c1 - 1)); [exact U4|]. apply Hi. lia.
Qed.
Lemma gather_spec : forall n l pivot a b, (pivot < a)%nat -> (b <= length l)%nat -> (pivot < b)%nat -> (b - a <= n)%nat ->
  (forall k, (a <= k < b)%nat -> at_ l k <= at_ l pivot) ->
  let '(l', b') := gather lt n l pivot a b in
  (Nat.min a b <= b' <= b)%nat /\ within a b l l' /\ (forall k, (b' <= k < b)%nat -> at_ l' k = at_ l pivot).
Proof.
  induction n as [|n IH]; intros l pivot a b P L Pb N Le; cbn [gather].
  { split; [lia|]. split; [apply within_refl|]. intros; lia. }
  pose proof (down_while_spec (S n) (fun i => negb (less lt l i pivot)) b a N) as D. cbv zeta in D.
  set (b1 := down_while (S n) (fun i => negb (less lt l i pivot)) b a) in *. destruct D as (D1 & D2 & D3 & D4).
  pose proof (up_while_spec (S n) (fun i => less lt l i pivot) a b1 ltac:(lia)) as U. cbv zeta in U.
  set (a1 := up_while (S n) (fun i => less lt l i pivot) a b1) in *. destruct U as (U1 & U2 & U3 & U4).
  assert (Hi : forall k, (b1 <= k < b)%nat -> (a <= k)%nat -> at_ l k = at_ l pivot).
  { intros k K Ka. specialize (D3 k K). cbv beta in D3. rewrite less_at in D3 by lia. apply negb_true_iff, Z.ltb_ge in D3.
    specialize (Le k ltac:(lia)). lia. }
  destruct (Nat.leb_spec b1 a1) as [E|E].
  { split; [lia|]. split; [apply within_refl|]. intros k K. apply Hi; lia. }
  destruct U4 as [U4|U4]; [lia|]. destruct D4 as [D4|D4]; [lia|]. cbv beta in U4, D4.
  rewrite less_at in U4, D4 by lia. apply negb_false_iff, Z.ltb_lt in D4. apply Z.ltb_ge in U4.
  assert (Ne : a1 <> (b1 - 1)%nat) by (intros Q; rewrite <- Q in D4; lia).
  pose proof (Le a1 ltac:(lia)) as La.
  assert (W1 : within a b l (swap l a1 (b1 - 1))) by (apply within_swap; lia).
  assert (Q : forall k, at_ (swap l a1 (b1 - 1)) k = at_ l (if (k =? a1)%nat then b1 - 1 else if (k =? b1 - 1)%nat then a1 else k)%nat)
    by (intro k; apply swap_at; lia).
  assert (Pv : at_ (swap l a1 (b1 - 1)) pivot = at_ l pivot).
  { rewrite Q. destruct (Nat.eqb_spec pivot a1); [lia|]. destruct (Nat.eqb_spec pivot (b1 - 1)); [lia|]. reflexivity. }
  specialize (IH (swap l a1 (b1 - 1)) pivot (S a1) (b1 - 1)%nat ltac:(lia) ltac:(rewrite swap_length; lia) ltac:(lia) ltac:(lia)).
  destruct (gather lt n (swap l a1 (b1 - 1)) pivot (S a1) (b1 - 1)) as [l' b']. destruct IH as (I1 & I2 & I3).
  { intros k K. rewrite Pv, Q. destruct (Nat.eqb_spec k a1); [lia|]. destruct (Nat.eqb_spec k (b1 - 1)); [lia|]. apply Le. lia. }
  rewrite Pv in I3. split; [lia|].
  split; [eapply within_trans; [exact W1|]; eapply within_wider; [| |exact I2]; lia|].
  intros k K. destruct (Nat.lt_ge_cases k (b1 - 1)) as [Lk|Gk]; [apply I3; lia|]. rewrite (within_out _ _ _ _ k I2) by lia. rewrite Q.
  destruct (Nat.eqb_spec k a1); [lia|]. destruct (Nat.eqb_spec k (b1 - 1)); [lia|]. apply Hi; lia.
Qed.

Lemma median_within : forall l m1 m0 m2 a b, (a <= m1 < b)%nat -> (a <= m0 < b)%nat -> (a <= m2 < b)%nat -> (b <= length l)%nat ->
  within a b l (medianOfThree lt l m1 m0 m2).
Proof.
  intros l m1 m0 m2 a b H1 H0 H2 B. unfold medianOfThree. cbv zeta.
  assert (W : forall x l', (b <= length l')%nat -> within a b l' (swap_if x l' m1 m0)).
  { intros [|] l' B'; cbn [swap_if]; [apply within_swap; lia|apply within_refl]. }
  pose proof (W (less lt l m1 m0) l B) as W1. set (l1 := swap_if (less lt l m1 m0) l m1 m0) in *.
  destruct (less lt l1 m2 m1); [|exact W1].
  eapply within_trans; [exact W1|]. pose proof (within_length _ _ _ _ W1) as Q.
  eapply within_trans; [apply within_swap with (i := m2) (j := m1); lia|]. apply W. rewrite swap_length. lia.
Qed.
Lemma median_low : forall l m1 m0 m2, (m1 < length l)%nat -> (m0 < length l)%nat -> (m2 < length l)%nat -> m1 <> m0 -> m1 <> m2 -> m0 <> m2 ->
  at_ (medianOfThree lt l m1 m0 m2) m1 <= at_ (medianOfThree lt l m1 m0 m2) m2.
Proof.
  intros l m1 m0 m2 H1 H0 H2 N10 N12 N02. unfold medianOfThree. cbv zeta.
  assert (K : forall x (l' : list A), length l' = length l -> length (swap_if x l' m1 m0) = length l).
  { intros [|] l' E; cbn [swap_if]; [rewrite swap_length|]; exact E. }
  assert (O1 : at_ (swap_if (less lt l m1 m0) l m1 m0) m0 <= at_ (swap_if (less lt l m1 m0) l m1 m0) m1).
  { rewrite less_at by lia. destruct (Z.ltb_spec (at_ l m1) (at_ l m0)); cbn [swap_if]; [|lia]. rewrite !swap_at by lia.
    rewrite !Nat.eqb_refl. destruct (Nat.eqb_spec m0 m1); lia. }
  pose proof (K (less lt l m1 m0) l eq_refl) as L1. set (l1 := swap_if (less lt l m1 m0) l m1 m0) in *.
  rewrite less_at by lia. destruct (Z.ltb_spec (at_ l1 m2) (at_ l1 m1)); [|lia].
  rewrite less_at by (rewrite swap_length; lia). set (l2 := swap l1 m2 m1).
  assert (Q : forall k, at_ l2 k = at_ l1 (if (k =? m2)%nat then m1 else if (k =? m1)%nat then m2 else k)) by (intro k; apply swap_at; lia).
  assert (E0 : at_ l2 m0 = at_ l1 m0). { rewrite Q. destruct (Nat.eqb_spec m0 m2); [lia|]. destruct (Nat.eqb_spec m0 m1); [lia|]. reflexivity. }
  assert (E1 : at_ l2 m1 = at_ l1 m2). { rewrite Q. destruct (Nat.eqb_spec m1 m2); [lia|]. rewrite Nat.eqb_refl. reflexivity. }
  assert (E2 : at_ l2 m2 = at_ l1 m1). { rewrite Q. rewrite Nat.eqb_refl. reflexivity. }
  destruct (Z.ltb_spec (at_ l2 m1) (at_ l2 m0)); cbn [swap_if]; [|lia].
  rewrite !swap_at by (unfold l2; rewrite swap_length; lia). rewrite Nat.eqb_refl.
  destruct (Nat.eqb_spec m2 m1); [lia|]. destruct (Nat.eqb_spec m2 m0); lia.
Qed.

(** What holds of the slice between the steps of doPivot: what is below [b] is at
    most the pivot, between [b] and [c] equal to it, from [c] on at least. *)
Record split3 (l0 l : list A) (lo hi b c : nat) (P : Z) : Prop := Split3 {
  s3_pivot : at_ l lo = P;
  s3_b : (lo + 1 <= b)%nat; s3_bc : (b <= c)%nat; s3_c : (c <= hi)%nat;
  s3_lo : forall k, (lo + 1 <= k < b)%nat -> at_ l k <= P;
  s3_mid : forall k, (b <= k < c)%nat -> at_ l k = P;
  s3_hi : forall k, (c <= k < hi)%nat -> P <= at_ l k;
  s3_within : within lo hi l0 l }.

Lemma doPivot_spec : forall l lo hi, (12 < hi - lo)%nat -> (hi <= length l)%nat ->
  let '(l', mlo, mhi) := doPivot lt l lo hi in
  within lo hi l l' /\ (lo <= mlo)%nat /\ (mlo < mhi)%nat /\ (mhi <= hi)%nat /\
  exists P, (forall k, (lo <= k < mlo)%nat -> at_ l' k <= P) /\ (forall k, (mlo <= k < mhi)%nat -> at_ l' k = P) /\
            (forall k, (mhi <= k < hi)%nat -> P <= at_ l' k).
Proof.
  intros l lo hi N B. unfold doPivot.
  pose proof (Nat.div_mod (lo + hi) 2 ltac:(lia)) as Dm. pose proof (Nat.mod_upper_bound (lo + hi) 2 ltac:(lia)) as Mm.
  set (m := ((lo + hi) / 2)%nat) in *.
  pose proof (Nat.div_mod (hi - lo) 8 ltac:(lia)) as D8. pose proof (Nat.mod_upper_bound (hi - lo) 8 ltac:(lia)) as M8.
  set (s := ((hi - lo) / 8)%nat) in *.
  pose proof (Nat.div_mod (hi - lo) 4 ltac:(lia)) as D4. pose proof (Nat.mod_upper_bound (hi - lo) 4 ltac:(lia)) as M4.
  set (q := ((hi - lo) / 4)%nat) in *. cbv zeta.
  match goal with |- context [medianOfThree lt ?x lo m (hi - 1)] => set (l1 := x) end.
  assert (W1 : within lo hi l l1).
  { unfold l1. destruct (Nat.ltb_spec 40 (hi - lo)); [|apply within_refl].
    assert (Wa : within lo hi l (medianOfThree lt l lo (lo + s) (lo + 2 * s))) by (apply median_within; lia).
    set (la := medianOfThree lt l lo (lo + s) (lo + 2 * s)) in *. pose proof (within_length _ _ _ _ Wa) as La.
    assert (Wb : within lo hi la (medianOfThree lt la m (m - s) (m + s))) by (apply median_within; lia).
    set (lb := medianOfThree lt la m (m - s) (m + s)) in *. pose proof (within_length _ _ _ _ Wb) as Lb.
    eapply within_trans; [exact Wa|]. eapply within_trans; [exact Wb|]. apply median_within; lia. }
  clearbody l1. pose proof (within_length _ _ _ _ W1) as L1.
  assert (W2 : within lo hi l1 (medianOfThree lt l1 lo m (hi - 1))) by (apply median_within; lia).
  assert (Lw : at_ (medianOfThree lt l1 lo m (hi - 1)) lo <= at_ (medianOfThree lt l1 lo m (hi - 1)) (hi - 1)) by (apply median_low; lia).
  set (l2 := medianOfThree lt l1 lo m (hi - 1)) in *. clearbody l2. pose proof (within_length _ _ _ _ W2) as L2.
  assert (W : within lo hi l l2) by (eapply within_trans; eassumption). clear W1 W2.
  pose proof (up_while_spec (hi - lo) (fun i => less lt l2 i lo) (lo + 1) (hi - 1) ltac:(lia)) as U. cbv zeta in U.
  set (a := up_while (hi - lo) (fun i => less lt l2 i lo) (lo + 1) (hi - 1)) in *. destruct U as (U1 & U2 & U3 & U4).
  assert (Lo : forall k, (lo + 1 <= k < a)%nat -> at_ l2 k <= at_ l2 lo).
  { intros k K. specialize (U3 k K). cbv beta in U3. rewrite less_at in U3 by lia. apply Z.ltb_lt in U3. lia. }
  pose proof (partition_spec (hi - lo) l2 lo a (hi - 1) ltac:(lia) ltac:(lia) ltac:(lia) ltac:(lia)) as Pa.
  destruct (partition lt (hi - lo) l2 lo a (hi - 1)) as [[l3 b] c]. destruct Pa as (Pe & Pb & Pw & Pl & Ph). subst c.
  set (P := at_ l2 lo) in *.
  assert (S3 : split3 l l3 lo hi b b P).
  { constructor; try lia.
    - apply (within_out _ _ _ _ _ Pw). lia.
    - intros k K. destruct (Nat.lt_ge_cases k a); [rewrite (within_out _ _ _ _ _ Pw) by lia; apply Lo; lia|apply Pl; lia].
    - intros k K. destruct (Nat.eq_dec k (hi - 1)) as [->|]; [rewrite (within_out _ _ _ _ _ Pw) by lia; exact Lw|].
      specialize (Ph k ltac:(lia)). lia.
    - eapply within_trans; [exact W|]. eapply within_wider; [| |exact Pw]; lia. }
  clear Pw Pl Ph Lw. clearbody P. clear W.
  match goal with |- match match ?X with _ => _ end with _ => _ end => set (dups := X) end.
  assert (S4 : let '(l4, b4, c4, _) := dups in split3 l l4 lo hi b4 c4 P /\ (lo + 1 <= b4)%nat).
  { unfold dups. clear dups. destruct (negb (hi - b <? 5)%nat && (hi - b <? q)%nat) eqn:G.
    2:{ split; [exact S3|lia]. }
    apply andb_true_iff in G. destruct G as [G1 G2]. apply negb_true_iff, Nat.ltb_ge in G1. apply Nat.ltb_lt in G2.
    assert (L3 : length l3 = length l) by (apply (within_length _ _ _ _ (s3_within _ _ _ _ _ _ _ S3))).
    (* what equals the pivot at the end *)
    match goal with |- match match ?X with _ => _ end with _ => _ end => set (step1 := X) end.
    assert (T1 : let '(l4, c4, _) := step1 in split3 l l4 lo hi b c4 P).
    { unfold step1. destruct (negb (less lt l3 lo (hi - 1))) eqn:Le; [|exact S3].
      apply negb_true_iff in Le. rewrite less_at in Le by lia. apply Z.ltb_ge in Le. destruct S3 as [Sp Sb Sbc Sc Sl Sm Sh Sw].
      assert (Q : forall k, at_ (swap l3 b (hi - 1)) k = at_ l3 (if (k =? b)%nat then hi - 1 else if (k =? hi - 1)%nat then b else k)%nat)
        by (intro k; apply swap_at; lia).
      constructor; try lia.
      - rewrite Q. destruct (Nat.eqb_spec lo b); [lia|]. destruct (Nat.eqb_spec lo (hi - 1)); [lia|]. exact Sp.
      - intros k K. rewrite Q. destruct (Nat.eqb_spec k b); [lia|]. destruct (Nat.eqb_spec k (hi - 1)); [lia|]. apply Sl. lia.
      - intros k K. rewrite Q. destruct (Nat.eqb_spec k b); [|lia]. specialize (Sh (hi - 1)%nat ltac:(lia)). lia.
      - intros k K. rewrite Q. destruct (Nat.eqb_spec k b); [lia|]. destruct (Nat.eqb_spec k (hi - 1)); apply Sh; lia.
      - eapply within_trans; [exact Sw|]. apply within_swap; lia. }
    destruct step1 as [[l4 c4] d4]. clear S3 L3.
    assert (L4 : length l4 = length l) by (apply (within_length _ _ _ _ (s3_within _ _ _ _ _ _ _ T1))).
    (* ... just below [b] *)
    match goal with |- match match ?X with _ => _ end with _ => _ end => set (step2 := X) end.
    assert (T2 : let '(b5, _) := step2 in split3 l l4 lo hi b5 c4 P /\ (b - 1 <= b5)%nat).
    { unfold step2. destruct (negb (less lt l4 (b - 1) lo)) eqn:Le; [|split; [exact T1|lia]].
      apply negb_true_iff in Le. rewrite less_at in Le by lia. apply Z.ltb_ge in Le. destruct T1 as [Sp Sb Sbc Sc Sl Sm Sh Sw]. split; [|lia].
      constructor; try lia; try assumption.
      - intros k K. apply Sl. lia.
      - intros k K. destruct (Nat.eq_dec k (b - 1)) as [->|]; [|apply Sm; lia]. specialize (Sl (b - 1)%nat ltac:(lia)). lia. }
    destruct step2 as [b5 d5]. destruct T2 as [T2 B5].
    (* ... in the middle *)
    destruct (negb (less lt l4 m lo)) eqn:Le; [|split; [exact T2|lia]].
    apply negb_true_iff in Le. rewrite less_at in Le by lia. apply Z.ltb_ge in Le. destruct T2 as [Sp Sb Sbc Sc Sl Sm Sh Sw]. split; [|lia].
    assert (Q : forall k, at_ (swap l4 m (b5 - 1)) k = at_ l4 (if (k =? m)%nat then b5 - 1 else if (k =? b5 - 1)%nat then m else k)%nat)
      by (intro k; apply swap_at; lia).
    pose proof (Sl m ltac:(lia)) as Mp.
    constructor; try lia.
    - rewrite Q. destruct (Nat.eqb_spec lo m); [lia|]. destruct (Nat.eqb_spec lo (b5 - 1)); [lia|]. exact Sp.
    - intros k K. rewrite Q. destruct (Nat.eqb_spec k m); [apply Sl; lia|]. destruct (Nat.eqb_spec k (b5 - 1)); [lia|]. apply Sl. lia.
    - intros k K. rewrite Q. destruct (Nat.eqb_spec k m) as [->|].
      + replace (b5 - 1)%nat with m by lia. lia.
      + destruct (Nat.eqb_spec k (b5 - 1)); [lia|]. apply Sm. lia.
    - intros k K. rewrite Q. destruct (Nat.eqb_spec k m); [lia|]. destruct (Nat.eqb_spec k (b5 - 1)); [lia|]. apply Sh. lia.
    - eapply within_trans; [exact Sw|]. apply within_swap; lia. }
  destruct dups as [[[l4 b4] c4] pr]. destruct S4 as [S4 B4]. clear S3.
  assert (L4 : length l4 = length l) by (apply (within_length _ _ _ _ (s3_within _ _ _ _ _ _ _ S4))).
  assert (S5 : let '(l5, b5) := (if pr then gather lt (hi - lo) l4 lo a b4 else (l4, b4)) in split3 l l5 lo hi b5 c4 P).
  { destruct pr; [|exact S4]. destruct S4 as [Sp Sb Sbc Sc Sl Sm Sh Sw].
    pose proof (gather_spec (hi - lo) l4 lo a b4 ltac:(lia) ltac:(lia) ltac:(lia) ltac:(lia)) as Ga.
    destruct (gather lt (hi - lo) l4 lo a b4) as [l5 b5]. destruct Ga as (G1 & G2 & G3).
    { intros k K. rewrite Sp. apply Sl. lia. }
    rewrite Sp in G3. constructor; try lia.
    - rewrite (within_out _ _ _ _ _ G2) by lia. exact Sp.
    - intros k K. destruct (Nat.lt_ge_cases k a); [rewrite (within_out _ _ _ _ _ G2) by lia; apply Sl; lia|].
      destruct (within_in _ _ _ _ k G2 ltac:(lia)) as (k' & K' & ->). apply Sl. lia.
    - intros k K. destruct (Nat.lt_ge_cases k b4); [apply G3; lia|]. rewrite (within_out _ _ _ _ _ G2) by lia. apply Sm. lia.
    - intros k K. rewrite (within_out _ _ _ _ _ G2) by lia. apply Sh. lia.
    - eapply within_trans; [exact Sw|]. eapply within_wider; [| |exact G2]; lia. }
  destruct (if pr then gather lt (hi - lo) l4 lo a b4 else (l4, b4)) as [l5 b5]. destruct S5 as [Sp Sb Sbc Sc Sl Sm Sh Sw].
  assert (L5 : length l5 = length l) by (apply (within_length _ _ _ _ Sw)).
  assert (Q : forall k, at_ (swap l5 lo (b5 - 1)) k = at_ l5 (if (k =? lo)%nat then b5 - 1 else if (k =? b5 - 1)%nat then lo else k)%nat)
    by (intro k; apply swap_at; lia).
  split; [eapply within_trans; [exact Sw|]; apply within_swap; lia|]. split; [lia|]. split; [lia|]. split; [lia|].
  exists P. split; [|split]; intros k K; rewrite Q.
  - destruct (Nat.eqb_spec k lo); [apply Sl; lia|]. destruct (Nat.eqb_spec k (b5 - 1)); [lia|]. apply Sl. lia.
  - destruct (Nat.eqb_spec k lo) as [->|]; [replace (b5 - 1)%nat with lo by lia; exact Sp|].
    destruct (Nat.eqb_spec k (b5 - 1)); [exact Sp|]. apply Sm. lia.
  - destruct (Nat.eqb_spec k lo); [lia|]. destruct (Nat.eqb_spec k (b5 - 1)); [lia|]. apply Sh. lia.
Qed.

(** ** The whole *)
Lemma quickSort_sorts : forall d l a b, (b <= length l)%nat -> srt a b (quickSort lt d l a b) /\ within a b l (quickSort lt d l a b).
Proof.
  induction d as [|d IH]; intros l a b B; cbn [quickSort]; destruct (Nat.ltb_spec 12 (b - a)) as [L|L]; try (apply short_sort_sorts; exact B).
  { apply heapSort_sorts; lia. }
  pose proof (doPivot_spec l a b L B) as Dp. destruct (doPivot lt l a b) as [[l1 mlo] mhi].
  destruct Dp as (W & A1 & A2 & A3 & P & P1 & P2 & P3). pose proof (within_length _ _ _ _ W) as L1.
  assert (Join : forall l2, srt a mlo l2 -> srt mhi b l2 -> (forall k, (a <= k < mlo)%nat -> at_ l2 k <= P) ->
            (forall k, (mlo <= k < mhi)%nat -> at_ l2 k = P) -> (forall k, (mhi <= k < b)%nat -> P <= at_ l2 k) -> srt a b l2).
  { intros l2 S1 S2 Q1 Q2 Q3 i j I IJ J.
    assert (X : forall k, (a <= k < mhi)%nat -> at_ l2 k <= P).
    { intros k K. destruct (Nat.lt_ge_cases k mlo); [apply Q1; lia|rewrite Q2 by lia; lia]. }
    assert (Y : forall k, (mlo <= k < b)%nat -> P <= at_ l2 k).
    { intros k K. destruct (Nat.lt_ge_cases k mhi); [rewrite Q2 by lia; lia|apply Q3; lia]. }
    destruct (Nat.lt_ge_cases j mlo); [apply S1; lia|]. destruct (Nat.le_gt_cases mhi i); [apply S2; lia|].
    specialize (X i ltac:(lia)). specialize (Y j ltac:(lia)). lia. }
  assert (Move : forall x y l2 l3, within x y l2 l3 -> forall u v (R : Z -> Prop), ((u <= x /\ y <= v) \/ v <= x \/ y <= u)%nat ->
            (forall k, (u <= k < v)%nat -> R (at_ l2 k)) -> forall k, (u <= k < v)%nat -> R (at_ l3 k)).
  { intros x y l2 l3 Wx u v R D H k K. destruct (Nat.lt_ge_cases k x); [rewrite (within_out _ _ _ _ _ Wx) by lia; apply H; exact K|].
    destruct (Nat.lt_ge_cases k y); [|rewrite (within_out _ _ _ _ _ Wx) by lia; apply H; exact K].
    destruct (within_in _ _ _ _ k Wx ltac:(lia)) as (k' & K' & ->). apply H. lia. }
  assert (Stay : forall x y l2 l3, within x y l2 l3 -> forall u v, (v <= x \/ y <= u)%nat -> srt u v l2 -> srt u v l3).
  { intros x y l2 l3 Wx u v D H i j I IJ J. rewrite !(within_out _ _ _ _ _ Wx) by lia. apply H; assumption. }
  destruct (mlo - a <? b - mhi)%nat.
  - destruct (IH l1 a mlo ltac:(lia)) as [S2 W2]. set (l2 := quickSort lt d l1 a mlo) in *. pose proof (within_length _ _ _ _ W2) as L2.
    destruct (IH l2 mhi b ltac:(lia)) as [S3 W3]. set (l3 := quickSort lt d l2 mhi b) in *.
    split.
    + apply Join.
      * apply (Stay _ _ _ _ W3); [lia|exact S2].
      * exact S3.
      * apply (Move _ _ _ _ W3 a mlo (fun z => z <= P)); [lia|]. apply (Move _ _ _ _ W2 a mlo (fun z => z <= P)); [lia|exact P1].
      * apply (Move _ _ _ _ W3 mlo mhi (fun z => z = P)); [lia|]. apply (Move _ _ _ _ W2 mlo mhi (fun z => z = P)); [lia|exact P2].
      * apply (Move _ _ _ _ W3 mhi b (fun z => P <= z)); [lia|]. apply (Move _ _ _ _ W2 mhi b (fun z => P <= z)); [lia|exact P3].
    + eapply within_trans; [exact W|]. eapply within_trans; [eapply within_wider; [| |exact W2]; lia|]. eapply within_wider; [| |exact W3]; lia.
  - destruct (IH l1 mhi b ltac:(lia)) as [S2 W2]. set (l2 := quickSort lt d l1 mhi b) in *. pose proof (within_length _ _ _ _ W2) as L2.
    destruct (IH l2 a mlo ltac:(lia)) as [S3 W3]. set (l3 := quickSort lt d l2 a mlo) in *.
    split.
    + apply Join.
      * exact S3.
      * apply (Stay _ _ _ _ W3); [lia|exact S2].
      * apply (Move _ _ _ _ W3 a mlo (fun z => z <= P)); [lia|]. apply (Move _ _ _ _ W2 a mlo (fun z => z <= P)); [lia|exact P1].
      * apply (Move _ _ _ _ W3 mlo mhi (fun z => z = P)); [lia|]. apply (Move _ _ _ _ W2 mlo mhi (fun z => z = P)); [lia|exact P2].
      * apply (Move _ _ _ _ W3 mhi b (fun z => P <= z)); [lia|]. apply (Move _ _ _ _ W2 mhi b (fun z => P <= z)); [lia|exact P3].
    + eapply within_trans; [exact W|]. eapply within_trans; [eapply within_wider; [| |exact W2]; lia|]. eapply within_wider; [| |exact W3]; lia.
Qed.

Lemma srt_sorted : forall l, srt 0 (length l) l -> StronglySorted (fun x y => key x <= key y) l.
Proof.
  induction l as [|x l IH]; intros S; [constructor|]. constructor.
  - apply IH. intros i j I IJ J. apply (S (Datatypes.S i) (Datatypes.S j)); cbn [length]; lia.
  - apply Forall_forall. intros y Y. apply In_nth_error in Y. destruct Y as [k Y].
    assert (K : (k < length l)%nat) by (apply nth_error_Some; congruence).
    specialize (S O (Datatypes.S k) ltac:(lia) ltac:(lia) ltac:(cbn [length]; lia)). unfold at_ in S. cbn [nth_error] in S. rewrite Y in S. exact S.
Qed.
Theorem slice_sorts : forall l, Permutation (slice lt l) l /\ StronglySorted (fun x y => key x <= key y) (slice lt l).
Proof.
  intros l. unfold slice. destruct (quickSort_sorts (maxDepth (length l)) l 0 (length l) ltac:(lia)) as [S W].
  split; [apply (w_perm _ _ _ _ W)|]. apply srt_sorted. rewrite (within_length _ _ _ _ W). exact S.
Qed.
End Facts.
