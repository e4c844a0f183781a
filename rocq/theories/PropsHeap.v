(** * Properties of PathComponents: C33 *)
From Verif Require Import Base BaseFacts GoTime Strconv Journal Account Spec TreeSpec TreeFacts Heap.

(** ** Specification *)

(** [at_path a q s]: the account [q] below [a] has the slice [s]. *)
Inductive at_path : hacc -> list str -> slice -> Prop :=
| AtHere : forall n s ch, at_path (HAcc n s ch) [] s
| AtBelow : forall n s ch k c q x, In (k, c) ch -> at_path c q x -> at_path (HAcc n s ch) (k :: q) x.

(** The PathComponents of an account. *)
Definition components_at (h : heap) (a : hacc) (q : list str) (cs : list str) : Prop :=
  exists s, at_path a q s /\ cs = strings h s.

(** Capacities of Go's growslice below 256 strings. *)
Definition doubles (grow : nat -> nat) : Prop := forall c, (1 <= c < 256)%nat -> grow c = (2 * c)%nat.

(** Depths at which an account gets an array of its own. *)
Definition own_depth (n : nat) : Prop := n = 1%nat \/ exists k, (k <= 8)%nat /\ n = (2 ^ k + 1)%nat.

(** ** Lemmas *)

Local Open Scope nat_scope.

Section Growth.
  Variable grow : nat -> nat.
  Hypothesis G : doubles grow.

  (** Capacity of the array of an account at depth [n], and the depth of the
      account the array was made for. *)
  Fixpoint cap (n : nat) : nat :=
    match n with
    | O => 0
    | S m => match m with
             | O => 1
             | _ => if Nat.ltb m (cap m) then cap m else Nat.max (S m) (grow (cap m))
             end
    end.
  Fixpoint base (n : nat) : nat :=
    match n with
    | O => 0
    | S m => match m with
             | O => 1
             | _ => if Nat.ltb m (cap m) then base m else S m
             end
    end.

  Lemma cap_S : forall m, 1 <= m -> cap (S m) = if Nat.ltb m (cap m) then cap m else Nat.max (S m) (grow (cap m)).
  Proof. intros [|m] H; [lia|reflexivity]. Qed.
  Lemma base_S : forall m, 1 <= m -> base (S m) = if Nat.ltb m (cap m) then base m else S m.
  Proof. intros [|m] H; [lia|reflexivity]. Qed.

  Lemma cap_ge : forall n, n <= cap n.
  Proof.
    destruct n as [|[|m]]; [cbn; lia..|]. rewrite cap_S by lia. destruct (Nat.ltb_spec (S m) (cap (S m))); lia.
  Qed.
  Lemma base_le : forall n, base n <= n.
  Proof.
    induction n as [|m IH]; [cbn; lia|]. destruct m; [cbn; lia|]. rewrite base_S by lia.
    destruct (Nat.ltb _ _); lia.
  Qed.
  Lemma base_mono : forall n m, n <= m -> base n <= base m.
  Proof.
    intros n m H. induction H as [|m H IH]; [lia|]. destruct m; [assert (n = 0) by lia; subst; cbn; lia|].
    rewrite base_S by lia. pose proof (base_le (S m)). destruct (Nat.ltb _ _); lia.
  Qed.

  Fixpoint cap2 (n : nat) : nat :=
    match n with
    | O => 0
    | S m => match m with
             | O => 1
             | _ => let c := cap2 m in if Nat.ltb m c then c else 2 * c
             end
    end.
  Lemma cap2_all : forall n, 1 <= n <= 256 -> n <= cap2 n <= 256 /\ cap2 n < 2 * n.
  Proof.
    intros n H.
    assert (A : forallb (fun n => Nat.leb n (cap2 n) && Nat.leb (cap2 n) 256 && Nat.ltb (cap2 n) (2 * n)) (seq 1 256) = true)
      by (vm_compute; reflexivity).
    rewrite forallb_forall in A. specialize (A n). rewrite !Bool.andb_true_iff, !Nat.leb_le, Nat.ltb_lt in A.
    apply A. apply in_seq. lia.
  Qed.
  Lemma cap_cap2 : forall n, n <= 256 -> cap n = cap2 n.
  Proof.
    induction n as [|m IH]; intros L; [reflexivity|]. destruct m; [reflexivity|]. rewrite cap_S by lia.
    rewrite IH by lia. change (cap2 (S (S m))) with (if Nat.ltb (S m) (cap2 (S m)) then cap2 (S m) else 2 * cap2 (S m)).
    destruct (Nat.ltb_spec (S m) (cap2 (S m))); [reflexivity|].
    destruct (cap2_all (S m)) as [A B]; [lia|]. assert (cap2 (S m) = S m) by lia. rewrite G by lia. lia.
  Qed.

  Definition ownb (n : nat) : bool := (n =? 1)%nat || existsb (fun k => n =? 2 ^ k + 1) (seq 0 9).
  Lemma ownb_iff : forall n, ownb n = true <-> own_depth n.
  Proof.
    intros n. unfold ownb, own_depth. rewrite Bool.orb_true_iff, Nat.eqb_eq, existsb_exists. split.
    - intros [H|(k & I & E)]; [auto|]. right. exists k. apply in_seq in I. apply Nat.eqb_eq in E. split; [lia|exact E].
    - intros [H|(k & I & E)]; [auto|]. right. exists k. split; [apply in_seq; lia|now apply Nat.eqb_eq].
  Qed.
  Lemma own_cap2 : forall n, 1 <= n <= 256 -> ownb (S n) = negb (Nat.ltb n (cap2 n)).
  Proof.
    intros n H.
    assert (A : forallb (fun n => Bool.eqb (ownb (S n)) (negb (Nat.ltb n (cap2 n)))) (seq 1 256) = true)
      by (vm_compute; reflexivity).
    rewrite forallb_forall in A. apply Bool.eqb_prop. apply A. apply in_seq. lia.
  Qed.
  Lemma own_le : forall n, own_depth n -> 1 <= n <= 257.
  Proof.
    intros n [->|(k & L & ->)]; [lia|]. assert (2 ^ k <= 2 ^ 8) by (apply Nat.pow_le_mono_r; lia).
    change (2 ^ 8) with 256 in H. lia.
  Qed.
  Lemma own_base : forall n, own_depth n -> base n = n.
  Proof.
    intros n O. pose proof (own_le n O) as L. destruct n as [|[|m]]; [lia|reflexivity|].
    apply ownb_iff in O. rewrite own_cap2, <- cap_cap2 in O by lia. rewrite base_S by lia.
    apply Bool.negb_true_iff in O. now rewrite O.
  Qed.
  Lemma not_own_cap : forall n, 1 <= n <= 256 -> ~ own_depth (S n) -> n < cap n.
  Proof.
    intros n L O. rewrite <- ownb_iff, own_cap2, <- cap_cap2 in O by lia.
    destruct (Nat.ltb_spec n (cap n)); [assumption|]. cbn in O. congruence.
  Qed.

  (** Arrays over time; [bs] gives for every array the depth it was made for. *)
  Definition later (h : heap) (bs : list nat) (h' : heap) (bs' : list nat) : Prop :=
    (exists ext, bs' = bs ++ ext) /\
    forall i, i < length h -> i < length h' /\ length (nth i h' []) = length (nth i h []) /\
      firstn (nth i bs 0) (nth i h' []) = firstn (nth i bs 0) (nth i h []).
  Definition valid (h : heap) (bs : list nat) (s : slice) : Prop :=
    sl_array s < length h /\ 1 <= sl_len s /\ length (nth (sl_array s) h []) = cap (sl_len s) /\
    nth (sl_array s) bs 0 = base (sl_len s).
  Definition paired (h : heap) (bs : list nat) : Prop := length bs = length h.

  Lemma later_refl : forall h bs, later h bs h bs.
  Proof. intros. split; [exists []; now rewrite app_nil_r|]. auto. Qed.
  Lemma later_trans : forall h bs h1 b1 h2 b2, paired h bs ->
    later h bs h1 b1 -> later h1 b1 h2 b2 -> later h bs h2 b2.
  Proof.
    intros h bs h1 b1 h2 b2 P [[e1 ->] A] [[e2 ->] B]. split; [exists (e1 ++ e2); now rewrite app_assoc|].
    intros i L. destruct (A i L) as (L1 & N1 & F1). destruct (B i L1) as (L2 & N2 & F2).
    split; [exact L2|]. split; [congruence|]. rewrite app_nth1 in F2 by (unfold paired in P; lia). congruence.
  Qed.
  Lemma valid_later : forall h bs h' bs' s, paired h bs -> later h bs h' bs' -> valid h bs s -> valid h' bs' s.
  Proof.
    intros h bs h' bs' s P [[e ->] A] (V1 & V2 & V3 & V4). destruct (A _ V1) as (L & N & F).
    split; [exact L|]. split; [exact V2|]. split; [congruence|]. rewrite app_nth1 by (unfold paired in P; lia). exact V4.
  Qed.
  Lemma firstn_less : forall (A : Type) n m (l l' : list A), n <= m -> firstn m l = firstn m l' -> firstn n l = firstn n l'.
  Proof.
    intros A n m l l' L E. replace n with (Nat.min n m) by lia. rewrite <- !firstn_firstn. now rewrite E.
  Qed.
  Lemma strings_later : forall h bs h' bs' s n, later h bs h' bs' -> valid h bs s -> n <= base (sl_len s) ->
    firstn n (strings h' s) = firstn n (strings h s).
  Proof.
    intros h bs h' bs' s n [_ A] (V1 & V2 & V3 & V4) L. destruct (A _ V1) as (_ & _ & F). unfold strings.
    rewrite !firstn_firstn. rewrite V4 in F. eapply firstn_less; [|exact F]. lia.
  Qed.

  Lemma set_array_length : forall h n x, length (set_array h n x) = length h.
  Proof. induction h; intros [|n] x; cbn; auto. Qed.
  Lemma set_array_same : forall h n x, n < length h -> nth n (set_array h n x) [] = x.
  Proof. induction h; intros [|n] x L; cbn in *; try lia; auto. apply IHh. lia. Qed.
  Lemma set_array_other : forall h n m x, n <> m -> nth m (set_array h n x) [] = nth m h [].
  Proof. induction h; intros [|n] [|m] x L; cbn; auto; lia. Qed.
  Lemma set_place_length : forall arr n x, n < length arr -> length (set_place arr n x) = length arr.
  Proof.
    intros. unfold set_place. rewrite app_length. cbn [length]. rewrite firstn_length_le, skipn_length by lia. lia.
  Qed.
  Lemma set_place_before : forall arr n m x, m <= n -> n < length arr -> firstn m (set_place arr n x) = firstn m arr.
  Proof.
    intros. unfold set_place. rewrite firstn_app, firstn_firstn, firstn_length_le by lia.
    replace (m - n) with 0 by lia. cbn. rewrite app_nil_r. f_equal. lia.
  Qed.
  Lemma set_place_to : forall arr n x, n < length arr -> firstn (S n) (set_place arr n x) = firstn n arr ++ [x].
  Proof.
    intros. unfold set_place. rewrite firstn_app, firstn_firstn, firstn_length_le by lia.
    rewrite Nat.min_r by lia. replace (S n - n) with 1 by lia. reflexivity.
  Qed.

  Lemma alloc_spec : forall h bs arr n h' s, paired h bs -> alloc h arr n = (h', s) ->
    1 <= n -> length arr = cap n -> base n = n ->
    paired h' (bs ++ [n]) /\ later h bs h' (bs ++ [n]) /\ valid h' (bs ++ [n]) s /\ sl_len s = n /\
    strings h' s = firstn n arr.
  Proof.
    unfold alloc. intros h bs arr n h' s P E L1 C B. inversion E; subst; clear E. unfold paired in P.
    split; [unfold paired; rewrite !app_length; cbn; lia|]. split; [|split; [|split]].
    - split; [now exists [n]|]. intros i L. rewrite app_length. split; [lia|]. rewrite !app_nth1 by lia. auto.
    - unfold valid. cbn [sl_array sl_len]. rewrite app_length. cbn [length]. split; [lia|]. split; [lia|].
      rewrite app_nth2 by lia. replace (length h - length h) with 0 by lia. cbn [nth]. split; [exact C|].
      rewrite app_nth2 by lia. replace (length h - length bs) with 0 by lia. cbn [nth]. lia.
    - reflexivity.
    - unfold strings. cbn [sl_array sl_len]. rewrite app_nth2 by lia. replace (length h - length h) with 0 by lia.
      reflexivity.
  Qed.

  Lemma append_spec : forall h bs s x h' s', paired h bs -> valid h bs s -> append grow h s x = (h', s') ->
    exists bs', paired h' bs' /\ later h bs h' bs' /\ valid h' bs' s' /\ sl_len s' = S (sl_len s) /\
      strings h' s' = strings h s ++ [x] /\ (sl_len s < cap (sl_len s) -> sl_array s' = sl_array s).
  Proof.
    intros h bs [i n] x h' s' P (V1 & V2 & V3 & V4) E. unfold append in E. cbn [sl_array sl_len] in *.
    rewrite V3 in E. destruct (Nat.ltb_spec n (cap n)) as [L|L].
    - inversion E; subst; clear E. exists bs. split; [unfold paired in *; now rewrite set_array_length|].
      split; [|split; [|split; [|split]]].
      + split; [exists []; now rewrite app_nil_r|]. intros j Lj. rewrite set_array_length. split; [exact Lj|].
        destruct (Nat.eq_dec i j) as [->|D].
        * rewrite set_array_same by lia. split; [apply set_place_length; lia|]. apply set_place_before; [|lia].
          rewrite V4. apply base_le.
        * rewrite set_array_other by lia. auto.
      + unfold valid. cbn [sl_array sl_len]. rewrite set_array_length, set_array_same by lia.
        rewrite set_place_length by lia. rewrite cap_S, base_S by lia. apply Nat.ltb_lt in L. rewrite L.
        repeat split; auto; lia.
      + reflexivity.
      + unfold strings. cbn [sl_array sl_len]. rewrite set_array_same by lia. apply set_place_to. lia.
      + reflexivity.
    - pose proof (cap_ge n). assert (C : cap n = n) by lia. exists (bs ++ [S n]).
      destruct (alloc_spec h bs _ (S n) h' s' P E) as (A1 & A2 & A3 & A4 & A5).
      + lia.
      + rewrite app_length. cbn [length]. rewrite repeat_length, firstn_length_le by lia. rewrite cap_S by lia.
        apply Nat.ltb_ge in L. rewrite L. lia.
      + rewrite base_S by lia. apply Nat.ltb_ge in L. now rewrite L.
      + split; [exact A1|]. split; [exact A2|]. split; [exact A3|]. split; [exact A4|]. split; [|lia].
        rewrite A5. unfold strings. cbn [sl_array sl_len]. rewrite firstn_app, firstn_firstn, firstn_length_le by lia.
        rewrite Nat.min_r by lia. replace (S n - n) with 1 by lia. reflexivity.
  Qed.

  (** ** The tree *)

  Definition link (r : bool) (ps s : slice) : Prop :=
    if r then sl_len s = 1
    else sl_len s = S (sl_len ps) /\ (sl_len ps < cap (sl_len ps) -> sl_array s = sl_array ps).
  Definition path_here (r : bool) (pp : list str) (n : str) : list str := (if r then [] else pp) ++ [n].

  Inductive fine (h : heap) (bs : list nat) : bool -> list str -> slice -> hacc -> Prop :=
  | Fine : forall r pp ps n s ch, valid h bs s -> link r ps s ->
      length (path_here r pp n) = sl_len s ->
      (sl_len s <= 3 -> strings h s = path_here r pp n) ->
      NoDup (map fst ch) -> (forall k c, In (k, c) ch -> h_name c = k) ->
      (forall k c, In (k, c) ch -> fine h bs (is_root_name n) (path_here r pp n) s c) ->
      fine h bs r pp ps (HAcc n s ch).

  Lemma small_base : forall n, 1 <= n <= 3 -> base n = n.
  Proof.
    intros n L. apply own_base. assert (E : n = 1 \/ n = 2 \/ n = 3) by lia; destruct E as [-> | [-> | ->]];
      [now left|right; exists 0|right; exists 1]; cbn; lia.
  Qed.
  Lemma fine_later : forall h bs h' bs' r pp ps a, paired h bs -> later h bs h' bs' ->
    fine h bs r pp ps a -> fine h' bs' r pp ps a.
  Proof.
    intros h bs h' bs' r pp ps a P L F. induction F as [r pp ps n s ch V K Lp St D N F IH].
    constructor; auto; [eapply valid_later; eauto|]. intros Le. rewrite <- St by exact Le.
    pose proof (strings_later h bs h' bs' s (sl_len s) L V) as Q. destruct V as (V1 & V2 & V3 & V4).
    rewrite small_base in Q by lia. specialize (Q (le_n _)). unfold strings in *. rewrite !firstn_firstn in Q.
    now rewrite Nat.min_id in Q.
  Qed.

  Definition context (h : heap) (bs : list nat) (r : bool) (pp : list str) (ps : slice) : Prop :=
    r = true \/ valid h bs ps /\ length pp = sl_len ps /\ (sl_len ps <= 3 -> strings h ps = pp).

  Lemma new_fine : forall rest h bs pname pp ps c h' a, paired h bs ->
    context h bs (is_root_name pname) pp ps ->
    h_newAccountWithChildren grow h pname ps c rest = (h', a) ->
    exists bs', paired h' bs' /\ later h bs h' bs' /\ h_name a = c /\ fine h' bs' (is_root_name pname) pp ps a.
  Proof.
    induction rest as [|c' rest IH]; intros h bs pname pp ps c h' a P C E; cbn [h_newAccountWithChildren] in E.
    - assert (Q : exists h1 pc, (if is_root_name pname then alloc h [c] 1 else append grow h ps c) = (h1, pc))
        by (destruct (is_root_name pname); [eexists; eexists; reflexivity|destruct (append grow h ps c); eauto]).
      destruct Q as (h1 & pc & Q). rewrite Q in E. inversion E; subst; clear E.
      destruct (is_root_name pname) eqn:R.
      + destruct (alloc_spec h bs [c] 1 h' pc P Q) as (A1 & A2 & A3 & A4 & A5); [lia|reflexivity|reflexivity|].
        exists (bs ++ [1]). split; [exact A1|]. split; [exact A2|]. split; [reflexivity|].
        apply Fine; [exact A3|exact A4|cbn; lia|intros _; exact A5|constructor|intros k x []|intros k x []].
      + destruct C as [C|(V & Lp & St)]; [discriminate|].
        destruct (append_spec h bs ps c h' pc P V Q) as (bs' & A1 & A2 & A3 & A4 & A5 & A6).
        exists bs'. split; [exact A1|]. split; [exact A2|]. split; [reflexivity|].
        apply Fine; [exact A3|split; auto| | |constructor|intros k x []|intros k x []].
        * unfold path_here. rewrite app_length. cbn [length]. lia.
        * intros Le. rewrite A5. unfold path_here. rewrite St by lia. reflexivity.
    - assert (Q : exists h1 pc, (if is_root_name pname then alloc h [c] 1 else append grow h ps c) = (h1, pc))
        by (destruct (is_root_name pname); [eexists; eexists; reflexivity|destruct (append grow h ps c); eauto]).
      destruct Q as (h1 & pc & Q). rewrite Q in E.
      destruct (h_newAccountWithChildren grow h1 c pc c' rest) as [h2 child] eqn:N. inversion E; subst; clear E.
      assert (S1 : exists b1, paired h1 b1 /\ later h bs h1 b1 /\ valid h1 b1 pc /\ link (is_root_name pname) ps pc /\
        length (path_here (is_root_name pname) pp c) = sl_len pc /\
        (sl_len pc <= 3 -> strings h1 pc = path_here (is_root_name pname) pp c)).
      { destruct (is_root_name pname) eqn:R.
        + destruct (alloc_spec h bs [c] 1 h1 pc P Q) as (A1 & A2 & A3 & A4 & A5); [lia|reflexivity|reflexivity|].
          exists (bs ++ [1]). split; [exact A1|]. split; [exact A2|]. split; [exact A3|]. split; [exact A4|].
          split; [cbn; lia|]. intros _. exact A5.
        + destruct C as [C|(V & Lp & St)]; [discriminate|].
          destruct (append_spec h bs ps c h1 pc P V Q) as (bs' & A1 & A2 & A3 & A4 & A5 & A6).
          exists bs'. split; [exact A1|]. split; [exact A2|]. split; [exact A3|]. split; [split; auto|].
          split; [unfold path_here; rewrite app_length; cbn [length]; lia|].
          intros Le. rewrite A5. unfold path_here. rewrite St by lia. reflexivity. }
      destruct S1 as (b1 & B1 & B2 & B3 & B4 & B5 & B6).
      destruct (IH h1 b1 c (path_here (is_root_name pname) pp c) pc c' h' child B1) as (b2 & D1 & D2 & D3 & D4);
        [right; auto|exact N|].
      exists b2. split; [exact D1|]. split; [eapply later_trans; eauto|]. split; [reflexivity|].
      assert (St' : sl_len pc <= 3 -> strings h' pc = path_here (is_root_name pname) pp c).
      { intros Le. rewrite <- B6 by exact Le. pose proof (strings_later h1 b1 h' b2 pc (sl_len pc) D2 B3) as X.
        destruct B3 as (V1 & V2 & V3 & V4). rewrite small_base in X by lia. specialize (X (le_n _)).
        unfold strings in *. rewrite !firstn_firstn in X. now rewrite Nat.min_id in X. }
      apply Fine; [exact (valid_later h1 b1 h' b2 pc B1 D2 B3)|exact B4|exact B5|exact St'| | |].
      + cbn. apply NoDup_cons; [intros []|apply NoDup_nil].
      + intros k x [I|[]]. inversion I; subst. reflexivity.
      + intros k x [I|[]]. inversion I; subst. exact D4.
  Qed.

  Definition kids (h : heap) (bs : list nat) (r : bool) (pp : list str) (s : slice) (ch : list (str * hacc)) : Prop :=
    NoDup (map fst ch) /\ (forall k c, In (k, c) ch -> h_name c = k) /\
    (forall k c, In (k, c) ch -> fine h bs r pp s c).

  Lemma foc_kids : forall comps h bs n pp s ch h' a', paired h bs -> context h bs (is_root_name n) pp s ->
    kids h bs (is_root_name n) pp s ch -> h_findOrCreate grow h (HAcc n s ch) comps = Some (h', a') ->
    exists bs' ch', a' = HAcc n s ch' /\ paired h' bs' /\ later h bs h' bs' /\ kids h' bs' (is_root_name n) pp s ch' /\
      forall q x, at_path (HAcc n s ch) q x -> at_path a' q x.
  Proof.
    induction comps as [|c rest IH]; intros h bs n pp s ch h' a' P C (K1 & K2 & K3) E; [discriminate|].
    cbn [h_findOrCreate] in E. destruct (get c ch) as [child|] eqn:Gc.
    - destruct rest as [|c' rest].
      + inversion E; subst. exists bs, ch. split; [reflexivity|]. split; [exact P|]. split; [apply later_refl|].
        split; [split; auto|]. auto.
      + destruct (h_findOrCreate grow h child (c' :: rest)) as [[h1 child']|] eqn:E1; [|discriminate].
        injection E as Eh Ea. subst h' a'. apply get_in in Gc. pose proof (K3 _ _ Gc) as F.
        inversion F as [r0 pp0 ps0 n1 s1 ch1 V K Lp St D N Fk X1 X2 X3 X4]; subst.
        destruct (IH h bs n1 (path_here (is_root_name n) pp n1) s1 ch1 h1 child' P) as (bs' & ch' & Q1 & Q2 & Q3 & Q4 & Q5);
          [right; auto|split; auto|exact E1|]. subst child'.
        exists bs', (put c (HAcc n1 s1 ch') ch). split; [reflexivity|]. split; [exact Q2|]. split; [exact Q3|].
        split.
        * split; [now apply nodup_put|]. destruct Q4 as (R1 & R2 & R3). split; intros k x I;
            (apply in_put in I; [|exact K1]; destruct I as [[-> ->]|[Nk I]]).
          -- exact (K2 _ _ Gc).
          -- exact (K2 _ _ I).
          -- apply Fine; auto; [exact (valid_later h bs h1 bs' s1 P Q3 V)|]. intros Le.
             assert (F' : fine h1 bs' (is_root_name n) pp s (HAcc n1 s1 ch1)) by (exact (fine_later h bs h1 bs' _ _ _ _ P Q3 F)).
             inversion F'; subst. auto.
          -- exact (fine_later h bs h1 bs' _ _ _ _ P Q3 (K3 _ _ I)).
        * intros q x H. inversion H as [|n0 s0 ch0 k c0 q0 x0 I H0]; subst; [constructor|].
          destruct (str_eq_dec k c) as [->|Nk].
          -- apply in_get in I; [|exact K1]. apply in_get in Gc; [|exact K1].
             assert (c0 = HAcc n1 s1 ch1) by congruence. subst c0.
             apply AtBelow with (HAcc n1 s1 ch'); [apply get_in; apply get_put_same|]. apply Q5. exact H0.
          -- apply AtBelow with c0; [|exact H0]. apply get_in. rewrite get_put_other by congruence.
             now apply in_get.
    - destruct (h_newAccountWithChildren grow h n s c rest) as [h1 child] eqn:E1.
      injection E as Eh Ea. subst h' a'.
      destruct (new_fine rest h bs n pp s c h1 child P C E1) as (bs' & Q1 & Q2 & Q3 & Q4).
      exists bs', (put c child ch). split; [reflexivity|]. split; [exact Q1|]. split; [exact Q2|]. split.
      + split; [now apply nodup_put|]. split; intros k x I;
          (apply in_put in I; [|exact K1]; destruct I as [[-> ->]|[Nk I]]); auto.
        exact (fine_later h bs h1 bs' _ _ _ _ P Q2 (K3 _ _ I)).
      + intros q x H. inversion H as [|n0 s0 ch0 k c0 q0 x0 I H0]; subst; [constructor|].
        apply AtBelow with c0; [|exact H0]. apply get_in. rewrite get_put_other; [now apply in_get|].
        intro X. apply in_get in I; [|exact K1]. rewrite <- X in I. congruence.
  Qed.

  Lemma focs_kids : forall l h bs n s ch h' a', paired h bs -> is_root_name n = true ->
    kids h bs true [] s ch -> h_findOrCreates grow h (HAcc n s ch) l = Some (h', a') ->
    exists bs' ch', a' = HAcc n s ch' /\ paired h' bs' /\ later h bs h' bs' /\ kids h' bs' true [] s ch' /\
      forall q x, at_path (HAcc n s ch) q x -> at_path a' q x.
  Proof.
    induction l as [|comps l IH]; intros h bs n s ch h' a' P R K E; cbn [h_findOrCreates] in E.
    - injection E as Eh Ea. subst h' a'. exists bs, ch. split; [reflexivity|]. split; [exact P|].
      split; [apply later_refl|]. auto.
    - destruct (h_findOrCreate grow h (HAcc n s ch) comps) as [[h1 a1]|] eqn:E1; [|discriminate].
      destruct (foc_kids comps h bs n [] s ch h1 a1 P) as (b1 & ch1 & Q1 & Q2 & Q3 & Q4 & Q5);
        [now left|now rewrite R|exact E1|]. subst a1. rewrite R in Q4.
      destruct (IH h1 b1 n s ch1 h' a' Q2 R Q4 E) as (b2 & ch2 & W1 & W2 & W3 & W4 & W5).
      exists b2, ch2. split; [exact W1|]. split; [exact W2|]. split; [eapply later_trans; eauto|].
      split; [exact W4|]. intros q x H. apply W5, Q5, H.
  Qed.

  Lemma new_kids : kids [repeat [] 5] [0] true [] (Slice 0 0) [] /\ paired [repeat [] 5] [0].
  Proof.
    split; [|reflexivity]. split; [constructor|]. split; intros k c [].
  Qed.

  (** Along a path without reserved names. *)
  Lemma fine_at : forall q h bs r pp ps a x, fine h bs r pp ps a -> at_path a q x -> Forall unreserved (h_name a :: q) ->
    valid h bs x /\ sl_len x = length (path_here r pp (h_name a) ++ q) /\
    (sl_len x <= 3 -> strings h x = path_here r pp (h_name a) ++ q).
  Proof.
    induction q as [|k q IH]; intros h bs r pp ps a x F A U; inversion F as [r0 pp0 ps0 n1 s1 ch1 V K Lp St D N Fk]; subst.
    - inversion A; subst. rewrite app_nil_r. cbn [h_name]. auto.
    - inversion A as [|n0 s0 ch0 k0 c0 q0 x0 I H0]; subst. pose proof (N _ _ I) as E. subst k.
      destruct (IH _ _ _ _ _ _ _ (Fk _ _ I) H0) as (R1 & R2 & R3); [now inversion U|].
      assert (B : is_root_name n1 = false).
      { inversion U as [|? ? [U1 U2] _]; subst. cbn [h_name] in *. unfold is_root_name. apply Bool.orb_false_iff.
        split; apply Bool.not_true_iff_false; intro X; apply str_eqb_eq in X; auto. }
      rewrite B in *. cbn [h_name path_here] in *. unfold path_here at 1 in R2. unfold path_here at 1 in R3.
      rewrite <- app_assoc in R2, R3. auto.
  Qed.
  Lemma kids_at : forall k q h bs n s ch x, kids h bs true [] s ch -> at_path (HAcc n s ch) (k :: q) x ->
    Forall unreserved (k :: q) ->
    valid h bs x /\ sl_len x = length (k :: q) /\ (sl_len x <= 3 -> strings h x = k :: q).
  Proof.
    intros k q h bs n s ch x (K1 & K2 & K3) A U. inversion A as [|n0 s0 ch0 k0 c0 q0 x0 I H0]; subst.
    pose proof (K2 _ _ I). subst k. exact (fine_at _ _ _ _ _ _ _ _ (K3 _ _ I) H0 U).
  Qed.
  Lemma fine_fun : forall q h bs r pp ps a x y, fine h bs r pp ps a -> at_path a q x -> at_path a q y -> x = y.
  Proof.
    induction q as [|k q IH]; intros h bs r pp ps a x y F A B; inversion F as [r0 pp0 ps0 n1 s1 ch1 V K Lp St D N Fk]; subst;
      inversion A as [|n0 s0 ch0 k0 c0 q0 x0 I H0]; inversion B as [|n2 s2 ch2 k2 c2 q2 x2 I2 HH2]; subst; [reflexivity|].
    pose proof (in_get _ _ _ _ D I). pose proof (in_get _ _ _ _ D I2). assert (c2 = c0) by congruence. subst c2. eauto.
  Qed.
  Lemma kids_fun : forall q h bs n s ch x y, kids h bs true [] s ch ->
    at_path (HAcc n s ch) q x -> at_path (HAcc n s ch) q y -> x = y.
  Proof.
    intros [|k q] h bs n s ch x y (K1 & K2 & K3) A B;
      inversion A as [|n0 s0 ch0 k0 c0 q0 x0 I H0]; inversion B as [|n2 s2 ch2 k2 c2 q2 x2 I2 HH2]; subst; [reflexivity|].
    pose proof (in_get _ _ _ _ K1 I). pose proof (in_get _ _ _ _ K1 I2). assert (c2 = c0) by congruence. subst c2.
    eapply fine_fun; eauto.
  Qed.
  Lemma strings_length : forall h bs s, valid h bs s -> length (strings h s) = sl_len s.
  Proof.
    intros h bs s (V1 & V2 & V3 & V4). unfold strings. apply firstn_length_le. rewrite V3. apply cap_ge.
  Qed.

  (** A second child of the same account. *)
  Lemma sibling : forall q h bs r pp ps a sq sd d e h' a', paired h bs -> fine h bs r pp ps a ->
    Forall unreserved (h_name a :: q) -> at_path a q sq -> at_path a (q ++ [d]) sd ->
    (forall x, ~ at_path a (q ++ [e]) x) -> sl_len sq < cap (sl_len sq) ->
    h_findOrCreate grow h a (q ++ [e]) = Some (h', a') -> strings h' sd = strings h sq ++ [e].
  Proof.
    induction q as [|k q IH]; intros h bs r pp ps a sq sd d e h' a' P F U Aq Ad Ne L E;
      inversion F as [r0 pp0 ps0 n1 s1 ch1 V K Lp St D N Fk]; subst.
    - cbn [app] in *. inversion Aq; subst. inversion Ad as [|n0 s0 ch0 k0 c0 q0 x0 I H0]; subst.
      cbn [h_findOrCreate] in E. destruct (get e ch1) as [c|] eqn:Ge.
      { exfalso. destruct c as [nc sc chc]. apply (Ne sc). apply AtBelow with (HAcc nc sc chc); [now apply get_in|constructor]. }
      cbn [h_newAccountWithChildren] in E.
      assert (B : is_root_name n1 = false).
      { inversion U as [|? ? [U1 U2] _]; subst. cbn [h_name] in *. unfold is_root_name. apply Bool.orb_false_iff.
        split; apply Bool.not_true_iff_false; intro X; apply str_eqb_eq in X; auto. }
      rewrite B in E. destruct (append grow h sq e) as [h1 pc] eqn:Ea. injection E as Eh Ea'. subst h'.
      destruct (append_spec h bs sq e h1 pc P V Ea) as (bs' & A1 & A2 & A3 & A4 & A5 & A6).
      pose proof (Fk _ _ I) as Fd. inversion H0; subst. inversion Fd as [r2 pp2 ps2 n2 s2 ch2 V2 K2 Lp2 St2 D2 N2 Fk2]; subst.
      rewrite B in K2. destruct K2 as [K2 K3]. specialize (K3 L). specialize (A6 L).
      assert (sd = pc) by (destruct sd, pc; cbn in *; congruence). subst. exact A5.
    - inversion Aq as [|n0 s0 ch0 k0 c0 q0 x0 I H0]; subst. cbn [app] in *.
      inversion Ad as [|n0 s0 ch0 k0 c1 q0 x0 I1 H1]; subst.
      pose proof (in_get _ _ _ _ D I) as Gk. pose proof (in_get _ _ _ _ D I1). assert (c1 = c0) by congruence. subst c1.
      cbn [h_findOrCreate] in E. rewrite Gk in E. pose proof (N _ _ I) as En.
      destruct (q ++ [e]) as [|y ys] eqn:Eq; [destruct q; discriminate|]. rewrite <- Eq in *. clear Eq y ys.
      destruct (h_findOrCreate grow h c0 (q ++ [e])) as [[h1 c']|] eqn:E1; [|discriminate]. injection E as Eh Ea. subst h'.
      apply (IH h bs _ _ _ c0 sq sd d e h1 c' P (Fk _ _ I)); auto.
      + rewrite En. now inversion U.
      + intros x A. apply (Ne x). apply AtBelow with c0; auto.
  Qed.
End Growth.

(** ** C33 *)

(** Accounts at depth 1, 2, 3, 5, 9, 17 … keep their PathComponents, and
    accounts anywhere keep the part of them that ends at the nearest such depth. *)
Theorem C33_own_array_partial : forall grow root l1 l2 h a h' a' q cs n, doubles grow -> is_root_name root = true ->
  h_findOrCreates grow (fst (h_new root)) (snd (h_new root)) l1 = Some (h, a) ->
  h_findOrCreates grow h a l2 = Some (h', a') ->
  Forall unreserved q -> components_at h a q cs -> own_depth n -> (n <= length q)%nat ->
  exists cs', components_at h' a' q cs' /\ (forall cs'', components_at h' a' q cs'' -> cs'' = cs') /\
    length cs = length q /\ length cs' = length q /\ firstn n cs' = firstn n cs.
Proof.
  intros grow root l1 l2 h a h' a' q cs n G R E1 E2 U (s & As & ->) O L.
  destruct (new_kids grow) as [K0 P0].
  destruct (focs_kids grow G l1 _ _ _ _ _ h a P0 R K0 E1) as (b1 & ch1 & -> & P1 & _ & K1 & _).
  destruct (focs_kids grow G l2 _ _ _ _ _ h' a' P1 R K1 E2) as (b2 & ch2 & -> & P2 & L2 & K2 & S2).
  pose proof (own_le n O). destruct q as [|k q]; [cbn in L; lia|].
  destruct (kids_at grow k q h b1 root _ ch1 s K1 As U) as (V & Ls & _).
  pose proof (valid_later grow _ _ _ _ s P1 L2 V) as V'.
  exists (strings h' s). split; [exists s; split; [apply S2; exact As|reflexivity]|]. split.
  - intros cs'' (s'' & A'' & ->). f_equal. exact (kids_fun grow _ _ _ _ _ _ _ _ K2 A'' (S2 _ _ As)).
  - rewrite (strings_length _ _ _ _ V), (strings_length _ _ _ _ V'). split; [exact Ls|]. split; [exact Ls|].
    apply (strings_later grow h b1 h' b2 s n L2 V). rewrite <- (own_base grow G n O). apply base_mono. lia.
Qed.

(** Down to depth three they are right. *)
Theorem C33_shallow_partial : forall grow root l h a q cs, doubles grow -> is_root_name root = true ->
  h_findOrCreates grow (fst (h_new root)) (snd (h_new root)) l = Some (h, a) ->
  Forall unreserved q -> (1 <= length q <= 3)%nat -> components_at h a q cs -> cs = q.
Proof.
  intros grow root l h a q cs G R E U L (s & As & ->).
  destruct (new_kids grow) as [K0 P0].
  destruct (focs_kids grow G l _ _ _ _ _ h a P0 R K0 E) as (b1 & ch1 & -> & P1 & _ & K1 & _).
  destruct q as [|k q]; [cbn in L; lia|].
  destruct (kids_at grow k q h b1 root _ ch1 s K1 As U) as (V & Ls & St). apply St. lia.
Qed.

(** At every other depth, the next sibling created renames the account. *)
Theorem C33_sibling_refuted : forall grow root l h a q d e cq cs h' a', doubles grow -> is_root_name root = true ->
  h_findOrCreates grow (fst (h_new root)) (snd (h_new root)) l = Some (h, a) ->
  Forall unreserved q -> q <> [] -> (length q <= 256)%nat -> ~ own_depth (length (q ++ [d])) ->
  components_at h a q cq -> components_at h a (q ++ [d]) cs ->
  (forall x, ~ components_at h a (q ++ [e]) x) ->
  h_findOrCreate grow h a (q ++ [e]) = Some (h', a') ->
  components_at h' a' (q ++ [d]) (cq ++ [e]) /\ d <> e.
Proof.
  intros grow root l h a q d e cq cs h' a' G R E U Nq Lq O (sq & Aq & ->) (sd & Ad & ->) Ne Ee.
  destruct (new_kids grow) as [K0 P0].
  destruct (focs_kids grow G l _ _ _ _ _ h a P0 R K0 E) as (b1 & ch1 & -> & P1 & _ & K1 & _).
  destruct q as [|k q]; [congruence|].
  destruct (kids_at grow k q h b1 root _ ch1 sq K1 Aq U) as (V & Ls & _).
  destruct (foc_kids grow G ((k :: q) ++ [e]) h b1 root [] (Slice 0 0) ch1 h' a' P1) as (b2 & ch2 & Q1 & _ & _ & _ & Q5);
    [now left|now rewrite R|exact Ee|].
  assert (D : d <> e).
  { intros ->. apply (Ne (strings h sd)). exists sd. auto. }
  split; [|exact D]. exists sd. split; [apply Q5; exact Ad|]. symmetry.
  destruct K1 as (K1 & K2 & K3). inversion Aq as [|n0 s0 ch0 k0 c0 q0 x0 I H0]; subst. cbn [app] in *.
  inversion Ad as [|n0 s0 ch0 k0 c1 q0 x0 I1 H1]; subst.
  pose proof (in_get _ _ _ _ K1 I) as Gk. pose proof (in_get _ _ _ _ K1 I1). assert (c1 = c0) by congruence. subst c1.
  cbn [h_findOrCreate] in Ee. rewrite Gk in Ee. pose proof (K2 _ _ I) as En.
  destruct (q ++ [e]) as [|y ys] eqn:Eq; [destruct q; discriminate|]. rewrite <- Eq in *. clear Eq y ys.
  destruct (h_findOrCreate grow h c0 (q ++ [e])) as [[h1 c']|] eqn:E1; [|discriminate]. injection Ee as Eh Ea. subst h'.
  apply (sibling grow q h b1 true [] _ c0 sq sd d e h1 c' P1 (K3 _ _ I)); auto.
  - now rewrite En.
  - intros x A. apply (Ne (strings h x)). exists x. split; [apply AtBelow with c0; auto|reflexivity].
  - apply not_own_cap; [exact G| |].
    + rewrite Ls. cbn [length] in *. lia.
    + intro X. apply O. rewrite Ls in X. cbn [length] in *. rewrite app_length, Nat.add_comm. exact X.
Qed.

(** Below the root of a month's spending the second category renames the first. *)
Theorem C33_spending_refuted : forall grow a b, a <> b ->
  exists h1 t1 h2 t2, h_findOrCreate grow (fst (h_new (lit "Spending"))) (snd (h_new (lit "Spending"))) [a] = Some (h1, t1) /\
    h_findOrCreate grow h1 t1 [b] = Some (h2, t2) /\
    components_at h1 t1 [a] [a] /\ components_at h2 t2 [a] [b].
Proof.
  intros grow a b D. cbn [h_new fst snd h_findOrCreate get assoc h_newAccountWithChildren].
  change (is_root_name (lit "Spending")) with false. cbn iota.
  set (e1 := append grow [repeat [] 5] (Slice 0 0) a). cbn in e1. subst e1. cbn iota beta.
  eexists _, _, _, _. split; [reflexivity|]. cbn [h_findOrCreate]. unfold put at 1. cbn [assoc_set].
  assert (Gb : get b [(a, HAcc a (Slice 0 1) [])] = None).
  { unfold get. cbn [assoc]. destruct (str_eqb b a) eqn:X; [|reflexivity]. apply str_eqb_eq in X. congruence. }
  rewrite Gb. cbn [h_newAccountWithChildren]. change (is_root_name (lit "Spending")) with false. cbn iota.
  set (e1 := append grow _ (Slice 0 0) b). cbn in e1. subst e1. cbn iota beta.
  split; [reflexivity|]. split.
  - exists (Slice 0 1). split; [|reflexivity]. apply AtBelow with (HAcc a (Slice 0 1) []); [now left|constructor].
  - exists (Slice 0 1). split; [|reflexivity]. apply AtBelow with (HAcc a (Slice 0 1) []); [|constructor].
    unfold put. cbn [assoc_set]. destruct (str_eqb b a) eqn:X; [|now left]. apply str_eqb_eq in X. congruence.
Qed.

(** A journal with two accounts at depth four. *)
Definition doubling (c : nat) : nat := (2 * c)%nat.
Definition deep (x : string) : list str := [lit "Assets"; lit "Bank"; lit "Joint"; lit x].

Example C33_example : doubles doubling /\
  exists h a h' a',
    h_findOrCreates doubling (fst (h_new RootID)) (snd (h_new RootID)) [[lit "Income"]; deep "Current"] = Some (h, a) /\
    h_findOrCreate doubling h a (deep "Savings") = Some (h', a') /\
    components_at h a (deep "Current") (deep "Current") /\ components_at h' a' (deep "Current") (deep "Savings") /\
    components_at h' a' [lit "Assets"; lit "Bank"; lit "Joint"] [lit "Assets"; lit "Bank"; lit "Joint"] /\
    ~ own_depth 4 /\ own_depth 3.
Proof.
  split; [intros c _; reflexivity|].
  eexists _, _, _, _. split; [vm_compute; reflexivity|]. split; [vm_compute; reflexivity|].
  split; [|split; [|split; [|split]]].
  - exists (Slice 4 4). split; [|vm_compute; reflexivity]. repeat (eapply AtBelow; [cbn; eauto|]). constructor.
  - exists (Slice 4 4). split; [|vm_compute; reflexivity]. repeat (eapply AtBelow; [cbn; eauto|]). constructor.
  - exists (Slice 4 3). split; [|vm_compute; reflexivity]. repeat (eapply AtBelow; [cbn; eauto|]). constructor.
  - rewrite <- ownb_iff. vm_compute. discriminate.
  - apply ownb_iff. reflexivity.
Qed.
