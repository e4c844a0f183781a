(** * The age of money: queues of days *)
From Verif Require Import Base BaseFacts GoTime Strconv Journal Lexer Parser Account Reporting Budget Cmd CalendarFacts TextSpec
  PropsStats.

(** Days with an amount each, laid end to end from [from]: the first unit of the
    day and the one after the last. *)
Fixpoint laid (from : Z) (days : list (date * Z)) : list (date * Z * Z) :=
  match days with
  | [] => []
  | (d, q) :: days' => (d, from, from + q) :: laid (from + q) days'
  end.

(** Does the spending of the units [a..b) touch the day that holds [c..d)?  A
    spending of nothing touches the day that holds the next unit. *)
Definition touches (a b c d : Z) : bool := (c <? d) && (a <? d) && (c <? Z.max b (a + 1)).

(** First in, first out: each spending day, in order, with the income days its
    units come from, in order. *)
Definition fifo (exps incs : list (date * Z)) : list (date * date) :=
  flat_map (fun '(e, a, b) =>
    flat_map (fun '(i, c, d) => if touches a b c d then [(e, i)] else []) (laid 0 incs)) (laid 0 exps).

(** What is left on a day when the first [s] units are gone. *)
Definition left_on (s : Z) (iv : date * Z * Z) : Z := let '(_, c, d) := iv in Z.min (d - c) (Z.max 0 (d - s)).
Definition day (iv : date * Z * Z) : date := fst (fst iv).

Definition good_day (x : date * Z) : Prop := 0 <= snd x < two63.

Lemma laid_days : forall l from, map day (laid from l) = map fst l.
Proof. induction l as [|[d q] l IH]; intro from; [reflexivity|]. cbn. now rewrite IH. Qed.

Lemma bucket_set_same : forall k v m, bucket k (assoc_set date_eqb k v m) = v.
Proof. intros. unfold bucket. rewrite assoc_set_same; [reflexivity|]. apply date_eqb_eq. Qed.
Lemma bucket_set_other : forall k k' v m, k <> k' -> bucket k' (assoc_set date_eqb k v m) = bucket k' m.
Proof. intros. unfold bucket. rewrite assoc_set_other; [reflexivity| |congruence]. apply date_eqb_eq. Qed.

Lemma laid_above : forall l from iv, Forall good_day l -> In iv (laid from l) -> from <= snd (fst iv) <= snd iv.
Proof.
  induction l as [|[d q] l IH]; intros from iv F I; [destruct I|]. inversion F as [|? ? G F']; subst. unfold good_day in G. cbn in G.
  destruct I as [<-|I]; [cbn; lia|]. specialize (IH _ _ F' I). lia.
Qed.

(** One spending day: the units [s .. s + x) are taken. *)
Lemma spend_spec : forall incs from s ek x inc inc' ages,
  Forall good_day incs -> NoDup (map fst incs) -> from <= s -> 0 <= x < two63 ->
  (forall iv, In iv (laid from incs) -> bucket (day iv) inc = left_on s iv) ->
  spend ek x (map fst incs) inc = (inc', ages) ->
  ages = flat_map (fun '(i, c, d) => if touches s (s + x) c d then [time_sub ek i] else []) (laid from incs) /\
  (forall iv, In iv (laid from incs) -> bucket (day iv) inc' = left_on (s + x) iv) /\
  (forall k, ~ In k (map fst incs) -> bucket k inc' = bucket k inc).
Proof.
  induction incs as [|[i q] incs IH]; intros from s ek x inc inc' ages F N L X B H.
  - cbn in H. inversion H; subst. repeat split; cbn; auto; intros iv [].
  - inversion F as [|? ? G F']; subst. inversion N as [|? ? Ni N']; subst. unfold good_day in G. cbn [snd] in G.
    cbn [map fst spend laid flat_map] in *. set (e := from + q) in *.
    pose proof (B (i, from, e) (or_introl eq_refl)) as Bi. unfold day in Bi. cbn [fst left_on] in Bi.
    assert (Tail : forall iv, In iv (laid e incs) -> In (day iv) (map fst incs)).
    { intros iv I. rewrite <- (laid_days incs e). now apply in_map. }
    assert (Ab : forall iv, In iv (laid e incs) -> e <= snd (fst iv) <= snd iv) by (intros; eapply laid_above; eauto).
    destruct (Z.eqb_spec (bucket i inc) 0) as [Z0|Z0].
    + destruct (IH e s ek x inc inc' ages) as (A1 & A2 & A3); auto.
      { lia. } { intros iv I. apply B. now right. } split; [|split].
      * rewrite A1. replace (touches s (s + x) from e) with false; [reflexivity|].
        symmetry. unfold touches. rewrite !andb_false_iff, !Z.ltb_ge. lia.
      * intros iv [<-|I]; [|auto]. unfold day. cbn [fst left_on]. rewrite A3 by assumption. rewrite Z0. lia.
      * intros k Nk. apply A3. intro I. apply Nk. now right.
    + assert (Ts : touches s (s + x) from e = true) by (unfold touches; rewrite !andb_true_iff, !Z.ltb_lt; lia).
      rewrite Ts. destruct (Z.ltb_spec (bucket i inc) x) as [Lt|Ge].
      * destruct (spend ek _ _ _) as [inc1 ages1] eqn:Sp. inversion H; subst inc' ages.
        rewrite wrap64_id in Sp by (unfold in_int64; lia).
        destruct (IH e e ek (x - bucket i inc) (assoc_set date_eqb i 0 inc) inc1 ages1) as (A1 & A2 & A3); auto; try lia.
        { intros iv I. rewrite bucket_set_other by (intros ->; apply Ni; auto). rewrite (B iv) by (now right).
          specialize (Ab iv I). destruct iv as [[d c] f]. cbn in Ab |- *. lia. }
        replace (e + (x - bucket i inc)) with (s + x) in A1, A2 by lia. split; [|split].
        -- rewrite A1. cbn [app]. f_equal. clear - Ab Lt Bi Z0 L G. induction (laid e incs) as [|iv l IHl]; [reflexivity|].
           cbn [flat_map]. rewrite IHl by (intros; apply Ab; now right). f_equal. specialize (Ab iv (or_introl eq_refl)).
           destruct iv as [[d c] f]. cbn in Ab. replace (touches s (s + x) c f) with (touches e (s + x) c f); [reflexivity|].
           unfold touches. destruct (Z.ltb_spec c f); [|reflexivity]. cbn [andb].
           replace (e <? f) with true by (symmetry; apply Z.ltb_lt; lia). replace (s <? f) with true by (symmetry; apply Z.ltb_lt; lia).
           f_equal. lia.
        -- intros iv [<-|I]; [|auto]. unfold day. cbn [fst left_on]. rewrite A3 by assumption. rewrite bucket_set_same. lia.
        -- intros k Nk. rewrite A3 by (intro I; apply Nk; now right). apply bucket_set_other. intros <-. apply Nk. now left.
      * inversion H; subst inc' ages. split; [|split].
        -- cbn [app]. f_equal. clear - Ab Ge Bi Z0 L G. induction (laid e incs) as [|iv l IHl]; [reflexivity|].
           cbn [flat_map]. rewrite <- IHl by (intros; apply Ab; now right). specialize (Ab iv (or_introl eq_refl)).
           destruct iv as [[d c] f]. cbn in Ab. replace (touches s (s + x) c f) with false; [reflexivity|].
           symmetry. unfold touches. rewrite !andb_false_iff, !Z.ltb_ge. lia.
        -- intros iv [<-|I].
           ++ unfold day. cbn [fst left_on]. rewrite bucket_set_same, wrap64_id by (unfold in_int64; lia). lia.
           ++ rewrite bucket_set_other by (intros ->; apply Ni; auto). rewrite (B iv) by (now right).
              specialize (Ab iv I). destruct iv as [[d c] f]. cbn in Ab |- *. lia.
        -- intros k Nk. apply bucket_set_other. intros <-. apply Nk. now left.
Qed.

Lemma age_loop_spec : forall exps incs s m inc, Forall good_day incs -> NoDup (map fst incs) -> Forall good_day exps -> 0 <= s ->
  (forall e q, In (e, q) exps -> bucket e m = q) ->
  (forall iv, In iv (laid 0 incs) -> bucket (day iv) inc = left_on s iv) ->
  age_loop (map fst exps) m (map fst incs) inc =
  flat_map (fun '(e, a, b) => flat_map (fun '(i, c, d) => if touches a b c d then [time_sub e i] else []) (laid 0 incs)) (laid s exps).
Proof.
  induction exps as [|[e q] exps IH]; intros incs s m inc F N G Hs M B; [reflexivity|].
  inversion G as [|? ? Ge G']; subst. unfold good_day in Ge. cbn [map fst age_loop laid flat_map snd] in *.
  rewrite (M e q) by (now left). destruct (spend e q (map fst incs) inc) as [inc' ages] eqn:Sp.
  destruct (spend_spec _ 0 s _ _ _ _ _ F N Hs Ge B Sp) as (A1 & A2 & _). rewrite A1. f_equal. apply IH; try lia; auto.
  intros. apply M. now right.
Qed.

Lemma bucket_in : forall m k q, NoDup (map fst m) -> In (k, q) m -> bucket k m = q.
Proof.
  induction m as [|[k' q'] m IH]; intros k q N I; [destruct I|]. inversion N as [|? ? Nk N']; subst. unfold bucket. cbn [assoc fst] in *.
  destruct I as [I|I].
  - inversion I; subst. replace (date_eqb k k) with true; [reflexivity|]. symmetry. now apply date_eqb_eq.
  - destruct (date_eqb k k') eqn:Q; [|apply IH; auto]. apply date_eqb_eq in Q. subst. exfalso. apply Nk. now apply (in_map fst) in I.
Qed.
