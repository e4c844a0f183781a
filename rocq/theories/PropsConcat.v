(** * Putting journals one after the other: C75 *)
From Verif Require Import Base BaseFacts Utf8 Unicode GoTime Strconv Journal Lexer Parser ParserFacts FlatSpec FlatFacts
  Spec JournalFacts BuilderFacts LineFacts IncludeFacts InputFacts Sample PropsParser PropsWhere.

(** Nothing is being built. *)
Definition idle (b : builder) : Prop := b_txn b = None /\ b_ptxn b = None /\ b_cur b = None.

(** Only what [b_type] says can be open. *)
Definition single (b : builder) : Prop :=
  match b_type b with
  | normalTransaction => b_ptxn b = None /\ (b_txn b = None -> b_cur b = None)
  | periodicTransaction => b_txn b = None /\ (b_ptxn b = None -> b_cur b = None)
  end.

Lemma idle_single : forall b, idle b -> single b.
Proof. intros b (H1 & H2 & H3). unfold single. destruct (b_type b); auto. Qed.

Lemma close_idle : forall b, idle b -> close_open b = (b, [], SOk).
Proof. intros b (H1 & H2 & _). unfold close_open. rewrite H1, H2. now destruct (b_type b). Qed.

Lemma close_single : forall b b' es, single b -> close_open b = (b', es, SOk) -> idle b'.
Proof.
  intros b b' es S H. unfold close_open, single in *. destruct (b_type b).
  - destruct (b_txn b) as [t|] eqn:T.
    + destruct (endNormalTransaction b t) as [t' [e|]]; inversion H; subst. repeat split. apply S.
    + inversion H; subst. repeat split; try assumption; apply S. reflexivity.
  - destruct (b_ptxn b) as [t|] eqn:T.
    + destruct (endNormalTransaction b (pt_txn t)) as [t' [e|]]; inversion H; subst. repeat split. apply S.
    + inversion H; subst. repeat split; try assumption; apply S. reflexivity.
Qed.

Lemma single_normal : forall b i c b', single b -> buildNormalTransaction b i c = POk b' -> single b'.
Proof.
  intros b i c b' S H. unfold buildNormalTransaction in H.
  assert (A : forall t, single b -> target b <> None -> single (set_target b t)).
  { clear. intros t. unfold single, set_target, target. destruct (b_type b) eqn:T; cbn; rewrite ?T.
    - intros [P _] _. split; [exact P|discriminate].
    - intros [P Q] N. split; [exact P|]. destruct (b_ptxn b); [discriminate|contradiction]. }
  assert (B : forall b t, target b = Some t -> forall p, single b -> single (set_cur b p)).
  { clear. intros b t T p. unfold single, set_cur, target in *. cbn. destruct (b_type b).
    - intros [P Q]. split; [exact P|]. rewrite T. discriminate.
    - intros [P Q]. split; [exact P|]. destruct (b_ptxn b); [|discriminate]. intro. discriminate. }
  assert (C : forall t t', b_txn b = Some t -> single (set_txn b t')).
  { intros t t' T. unfold single, set_txn in *. cbn. destruct (b_type b).
    - split; [apply S|discriminate].
    - destruct S as [N _]. congruence. }
  assert (D : forall p, b_cur b = Some p -> forall p', single (set_cur b p')).
  { intros p P p'. unfold single, set_cur in *. cbn. destruct (b_type b); (split; [apply S|]; intro N; apply S in N; congruence). }
  destruct i.
  - now inversion H; subst.
  - now inversion H; subst.
  - destruct (parseDate c); try discriminate. destruct (target b) eqn:T; [|discriminate]. inversion H; subst. apply A; auto. congruence.
  - destruct (negb _); [discriminate|]. destruct c; [discriminate|]. destruct (target b) eqn:T; [|discriminate]. inversion H; subst. apply A; auto. congruence.
  - destruct (negb _); [discriminate|]. destruct (target b) eqn:T; [|discriminate]. inversion H; subst. apply A; auto. congruence.
  - destruct (negb _); [discriminate|]. destruct (b_cur b) as [p|] eqn:P; [|discriminate]. destruct (target b) as [t|] eqn:T; [|discriminate].
    destruct (if negb (is_nil (po_account p)) then _ else _) as [t' p'] eqn:X. inversion H; subst.
    apply (B _ t').
    + unfold target, set_target in *. destruct (b_type b) eqn:Ty; cbn; rewrite ?Ty; [reflexivity|]. destruct (b_ptxn b); [reflexivity|discriminate].
    + apply A; auto. congruence.
  - destruct (negb _); [discriminate|]. destruct (b_cur b) as [p|] eqn:P; [|discriminate]. inversion H; subst. eapply D; reflexivity.
  - destruct (negb _); [discriminate|]. destruct (b_cur b) as [p|] eqn:P; [|discriminate]. destruct (parseAmount c); try discriminate.
    inversion H; subst. eapply D; reflexivity.
  - destruct (b_cur b) as [p|] eqn:P; [|discriminate]. destruct (negb _); [inversion H; subst; eapply D; reflexivity|].
    destruct (b_txn b) as [t|] eqn:T; [|discriminate]. inversion H; subst. eapply C; reflexivity.
  - destruct (b_txn b) as [t|] eqn:T; [|discriminate]. inversion H; subst. eapply C; reflexivity.
  - now inversion H; subst.
  - now inversion H; subst.
Qed.

Lemma single_built : forall b i c b' es, single b -> built b i c = (b', es, SOk) -> single b'.
Proof.
  intros b i c b' es S H. unfold built, build in H.
  assert (P : forall x, single x -> single (set_prev x i)) by (intros x X; exact X).
  assert (Q : forall x, buildPeriodicTransaction b i c = POk x -> single x).
  { unfold buildPeriodicTransaction. destruct (b_ptxn b) as [pt|] eqn:T; [|discriminate]. intros x X.
    destruct i; try (eapply single_normal; eassumption). inversion X; subst. unfold single in *. cbn. destruct (b_type b).
    - destruct S. congruence.
    - split; [apply S|discriminate]. }
  destruct (b_type b).
  - destruct (buildNormalTransaction b i c) eqn:X; inversion H; subst. apply P. eapply single_normal; eassumption.
  - destruct (buildPeriodicTransaction b i c) eqn:X; inversion H; subst. apply P. now apply Q.
Qed.

Lemma rewrap_ok : forall f F b es, rewrap f F = (b, es, SOk) -> F = (b, es, SOk).
Proof. intros f [[b es] []] b' es' H; cbn in H; inversion H; reflexivity. Qed.

Lemma single_begin : forall b ty, idle b -> single (beginTransaction b ty).
Proof. intros b ty (H1 & H2 & _). destruct ty; cbn; split; try assumption; discriminate. Qed.

Lemma single_item : forall b i c b' es, single b -> flat_item b i c = (b', es, SOk) -> single b'.
Proof.
  intros b i c b' es S H. destruct i; cbn [flat_item] in H; try (eapply single_built; eassumption).
  - eapply idle_single, close_single; eassumption.
  - apply fbind_ok in H as (b1 & es1 & es2 & H1 & H2 & _). apply rewrap_ok in H2. eapply single_built; [|exact H2].
    apply single_begin. eapply close_single; eassumption.
  - apply fbind_ok in H as (b1 & es1 & es2 & H1 & H2 & _). apply rewrap_ok in H2. eapply single_built; [|exact H2].
    apply single_begin. eapply close_single; eassumption.
  - eapply idle_single, close_single; eassumption.
Qed.
Lemma single_items : forall items e b b' es, single b -> flat_items b items e = (b', es, SOk) -> single b'.
Proof.
  induction items as [|[i c] items IH]; intros e b b' es S H; cbn in H; [destruct e; inversion H; now subst|].
  apply fbind_ok in H as (b1 & es1 & es2 & H1 & H2 & _). eapply IH; [|exact H2]. eapply single_item; eassumption.
Qed.
Lemma single_flat : forall U ls b b' es, stops_fail ls -> single b -> flat U ls b = (b', es, SOk) -> single b'.
Proof.
  intros U. induction ls as [|[l|r] ls IH]; intros b b' es F S H; cbn [flat] in H.
  - inversion H; now subst.
  - inversion_clear F as [|? ? _ F']. apply fbind_ok in H as (b1 & es1 & es2 & H1 & H2 & _). eapply IH; [exact F'| |exact H2].
    unfold flat_line in H1. destruct (lexLine U [] l). eapply single_items; eassumption.
  - inversion_clear F as [|? ? N _]. inversion H; subst. contradiction.
Qed.

(** Two builders between which the rest of a journal makes no difference. *)
Definition alike (b b' : builder) : Prop := b = b' \/ idle b /\ idle b'.

Lemma idle_built : forall b i c b' es, idle b -> i <> dateItem -> i <> periodItem -> i <> emptyLineItem -> i <> eofItem -> i <> includeItem ->
  built b i c <> (b', es, SOk).
Proof.
  intros b i c b' es (H1 & H2 & H3) N1 N2 N3 N4 N5. unfold built, build, buildPeriodicTransaction. rewrite H2.
  destruct (b_type b) eqn:T; [|discriminate]. unfold buildNormalTransaction, target. rewrite T, H1, H3.
  destruct i; try contradiction; try discriminate; try (destruct (negb _); [discriminate|]); try discriminate.
  all: try (destruct c; discriminate).
Qed.

Lemma begin_built : forall b b' i c ty, (ty = normalTransaction /\ i = dateItem \/ ty = periodicTransaction /\ i = periodItem) ->
  idle b -> idle b' -> forall x es, built (beginTransaction b ty) i c = (x, es, SOk) -> built (beginTransaction b' ty) i c = (x, es, SOk).
Proof.
  intros b b' i c ty [[-> ->]|[-> ->]] (H1 & H2 & _) (K1 & K2 & _) x es H; unfold built, build, beginTransaction in *;
    rewrite ?H1, ?H2, ?K1, ?K2 in *; cbn in *.
  - destruct (parseDate c); inversion H; subst. reflexivity.
  - inversion H; subst. reflexivity.
Qed.

Lemma alike_item : forall b b' i c x es, i <> includeItem -> alike b b' -> flat_item b i c = (x, es, SOk) ->
  exists x', flat_item b' i c = (x', es, SOk) /\ alike x x'.
Proof.
  intros b b' i c x es N [->|[I I']] H; [exists x; split; [exact H|now left]|].
  destruct i; cbn [flat_item] in *; try (exfalso; revert H; apply idle_built; (assumption || discriminate)).
  - rewrite close_idle in * by assumption. inversion H; subst. exists b'. split; [reflexivity|now right].
  - rewrite close_idle in * by assumption. cbn [fbind] in *.
    destruct (rewrap EParsingDate (built (beginTransaction b normalTransaction) dateItem c)) as [[y es'] r] eqn:R. inversion H; subst.
    apply rewrap_ok in R. exists x. split; [|now left]. rewrite (begin_built b b' dateItem c normalTransaction (or_introl (conj eq_refl eq_refl)) I I' _ _ R). reflexivity.
  - rewrite close_idle in * by assumption. cbn [fbind] in *.
    destruct (rewrap EParsingPeriod (built (beginTransaction b periodicTransaction) periodItem c)) as [[y es'] r] eqn:R. inversion H; subst.
    apply rewrap_ok in R. exists x. split; [|now left].
    rewrite (begin_built b b' periodItem c periodicTransaction (or_intror (conj eq_refl eq_refl)) I I' _ _ R). reflexivity.
  - rewrite close_idle in * by assumption. inversion H; subst. exists b'. split; [reflexivity|now right].
Qed.
Lemma alike_items : forall items e b b' x es, Forall (fun y => fst y <> includeItem) items -> alike b b' -> flat_items b items e = (x, es, SOk) ->
  exists x', flat_items b' items e = (x', es, SOk) /\ alike x x'.
Proof.
  induction items as [|[i c] items IH]; intros e b b' x es F A H; cbn [flat_items] in *.
  - destruct e; inversion H; subst. exists b'. split; [reflexivity|exact A].
  - inversion_clear F as [|? ? N F']. apply fbind_ok in H as (b1 & es1 & es2 & H1 & H2 & ->).
    destruct (alike_item _ _ _ _ _ _ N A H1) as (b1' & H1' & A1). destruct (IH _ _ _ _ _ F' A1 H2) as (x' & H2' & A2).
    exists x'. split; [|exact A2]. cbn [fst] in H1'. rewrite H1'. cbn [fbind]. now rewrite H2'.
Qed.

(** A line without include directive. *)
Definition ordinary (U : unicode) (x : fline) : Prop :=
  match x with FLine l => Forall (fun y => fst y <> includeItem) (fst (lexLine U [] l)) | FStop r => r <> SOk end.
Lemma alike_flat : forall U ls b b' x es, Forall (ordinary U) ls -> alike b b' -> flat U ls b = (x, es, SOk) ->
  exists x', flat U ls b' = (x', es, SOk) /\ alike x x'.
Proof.
  intro U. induction ls as [|[l|r] ls IH]; intros b b' x es F A H; cbn [flat] in *.
  - inversion H; subst. exists b'. split; [reflexivity|exact A].
  - inversion_clear F as [|? ? N F']. apply fbind_ok in H as (b1 & es1 & es2 & H1 & H2 & ->). cbn [ordinary] in N.
    assert (X : exists b1', flat_line U l b' = (b1', es1, SOk) /\ alike b1 b1').
    { unfold flat_line in *. destruct (lexLine U [] l) as [items e]. eapply alike_items; eassumption. }
    destruct X as (b1' & H1' & A1). destruct (IH _ _ _ _ F' A1 H2) as (x' & H2' & A2).
    exists x'. split; [|exact A2]. rewrite H1'. cbn [fbind]. now rewrite H2'.
  - inversion_clear F as [|? ? N _]. inversion H; subst. contradiction.
Qed.

(** A journal that could start here does not touch what is still open but finishes
    it first. *)
Lemma open_item : forall b0 b1 e i c x es, close_open b0 = (b1, e, SOk) -> idle b1 -> i <> includeItem ->
  flat_item b1 i c = (x, es, SOk) -> flat_item b0 i c = (x, e ++ es, SOk).
Proof.
  intros b0 b1 e i c x es C I N H.
  destruct i; cbn [flat_item] in *; try (exfalso; revert H; apply idle_built; (assumption || discriminate));
    rewrite (close_idle b1 I) in H; rewrite C.
  - inversion H; subst. now rewrite app_nil_r.
  - cbn [fbind] in *. destruct (rewrap _ _) as [[y es'] r]. inversion H; subst. reflexivity.
  - cbn [fbind] in *. destruct (rewrap _ _) as [[y es'] r]. inversion H; subst. reflexivity.
  - inversion H; subst. now rewrite app_nil_r.
Qed.
Lemma open_flat : forall U ls b0 b1 e x es, Forall (ordinary U) ls -> close_open b0 = (b1, e, SOk) -> idle b1 ->
  flat U ls b1 = (x, es, SOk) ->
  flat U ls b0 = (x, e ++ es, SOk) \/ flat U ls b0 = (b0, [], SOk) /\ x = b1 /\ es = [].
Proof.
  intros U ls b0 b1 e x es F C I. revert x es. induction F as [|[l|r] ls N F IH]; intros x es H; cbn [flat] in *.
  - inversion H; subst. right. auto.
  - apply fbind_ok in H as (b2 & es1 & es2 & H1 & H2 & ->). cbn [ordinary] in N. unfold flat_line in *.
    destruct (lexLine U [] l) as [[|[i c] items] err].
    + cbn [flat_items] in *. destruct err; inversion H1; subst. cbn [app fbind]. destruct (IH _ _ H2) as [->|(-> & -> & ->)]; auto.
    + inversion_clear N as [|? ? Ni N']. cbn [fst] in Ni. cbn [flat_items] in *.
      apply fbind_ok in H1 as (b3 & es3 & es4 & H1 & H3 & ->). left.
      rewrite (open_item _ _ _ _ _ _ _ C I Ni H1). cbn [fbind]. rewrite H3. cbn [fbind]. rewrite H2. now rewrite <- !app_assoc.
  - inversion H; subst. contradiction.
Qed.

Section Files.
Variable U : unicode.
Variable fs : str -> option file.

Lemma ordinary_line : forall hint l, included U hint l = None -> ordinary U (FLine l).
Proof.
  intros hint l H. cbn. unfold included in H. destruct (lex_include_cases U hint l) as [(c & E)|[E F]].
  - rewrite E in H. discriminate.
  - rewrite E in F. apply Forall_forall. rewrite Forall_forall in F. intros x I. apply (F x I).
Qed.
Lemma ordinary_blank : ordinary U (FLine []).
Proof. apply (ordinary_line []). reflexivity. Qed.
Lemma ordinary_lines : forall inc hint bad ls, (forall p, Forall (ordinary U) (inc p)) -> Forall (ordinary U) (expand_lines U inc hint bad ls).
Proof.
  intros inc hint bad ls H. induction ls as [|[l|] ls IH]; cbn [expand_lines].
  - destruct bad; (apply Forall_cons; [|apply Forall_nil]); [discriminate|exact ordinary_blank].
  - destruct (included U hint l) eqn:E; [apply Forall_app; split; auto|constructor; [now apply (ordinary_line hint)|exact IH]].
  - repeat constructor. discriminate.
Qed.
Lemma ordinary_expand : forall d hint f, Forall (ordinary U) (expand U fs d hint f).
Proof.
  induction d as [|d IH]; intros hint f; cbn [expand]; apply ordinary_lines; intro p.
  - repeat constructor. discriminate.
  - destruct (fs p); [apply IH|repeat constructor; discriminate].
Qed.

Lemma expand_blank : forall d hint f r es, flat U (expand U fs d hint f) newBuilder = (r, es, SOk) -> exists ls, expand U fs d hint f = ls ++ [FLine []].
Proof.
  intros d hint f r es H. pose proof (flat_ok_no_stop _ _ _ _ _ (expand_stops U fs d hint f) H) as N. rewrite expand_inc_of in *.
  destruct f as [bytes bad]. cbn [f_bad f_bytes] in *. clear H.
  induction (file_lines bytes) as [|[l|] ls IH]; cbn [expand_lines] in *.
  - destruct bad; [destruct (N (SErr (ERead hint))); now left|]. exists []. reflexivity.
  - destruct (included U hint l) as [p|].
    + destruct IH as (m & ->); [intros q Q; apply (N q); apply in_or_app; now right|]. exists (inc_of U fs d p ++ m). apply app_assoc.
    + destruct IH as (m & ->); [intros q Q; apply (N q); now right|]. exists (FLine l :: m). reflexivity.
  - destruct (N SFatal). now left.
Qed.

Lemma expand_append : forall d hint a b, line_start a -> ~ In LongLine (file_lines a) ->
  exists pre, expand U fs d hint (File a false) = pre ++ [FLine []] /\
    expand U fs d hint (File (a ++ b) false) = pre ++ expand U fs d hint (File b false) /\ stops_fail pre.
Proof.
  intros d hint a b L N. exists (flat_map (line_exp U (inc_of U fs d) hint) (file_lines a)).
  rewrite !expand_inc_of. cbn [f_bad f_bytes]. rewrite (file_lines_start a b L).
  split; [|split].
  - rewrite <- (app_nil_r (file_lines a)) at 1. rewrite expand_lines_app by exact N. reflexivity.
  - apply expand_lines_app. exact N.
  - apply (line_exp_stops U fs).
Qed.

Lemma expand_concat : forall d hint a b, line_start a -> ~ In LongLine (file_lines a) ->
  exists pre, expand U fs d hint (File a false) = pre ++ [FLine []] /\
    expand U fs d hint (File (a ++ LF :: b) false) = (pre ++ [FLine []]) ++ expand U fs d hint (File b false) /\ stops_fail (pre ++ [FLine []]).
Proof.
  intros d hint a b L N. exists (flat_map (line_exp U (inc_of U fs d) hint) (file_lines a)).
  rewrite !expand_inc_of. cbn [f_bad f_bytes]. rewrite (file_lines_start a (LF :: b) L).
  change (LF :: b) with ([LF] ++ b). rewrite (file_lines_start [LF] b) by (right; exists []; reflexivity).
  split; [|split].
  - rewrite <- (app_nil_r (file_lines a)) at 1. rewrite expand_lines_app by exact N. reflexivity.
  - rewrite expand_lines_app by exact N. rewrite <- app_assoc. reflexivity.
  - unfold stops_fail. apply Forall_app. split; [apply (line_exp_stops U fs)|]. repeat constructor. discriminate.
Qed.

Lemma long_line_stops : forall d hint a, line_start a -> In LongLine (file_lines a) -> forall b, 
  snd (entries U fs d hint (File (a ++ b) false)) <> SOk.
Proof.
  intros d hint a L I b H. apply entries_ok_no_stop in H. rewrite expand_inc_of in H. apply expand_lines_no_stop in H as (_ & NL & _).
  apply NL. cbn [f_bytes]. rewrite file_lines_start by exact L. apply in_or_app. now left.
Qed.

(** Two journals with a blank line between them are read without error exactly when
    both are, and then hold the entries of the first followed by those of the
    second. *)
Theorem C75_concatenation : forall depth hint a b, line_start a ->
  let read text := trace U fs depth hint (File text false) in
  (snd (read (a ++ LF :: b)) = SOk <-> snd (read a) = SOk /\ snd (read b) = SOk) /\
  (snd (read a) = SOk -> snd (read b) = SOk ->
   map erase (fst (read (a ++ LF :: b))) = map erase (fst (read a)) ++ map erase (fst (read b))).
Proof.
  intros depth hint a b L read. unfold read.
  rewrite !trace_ok_entries. rewrite !(fun f => proj1 (trace_flat U fs depth hint f)).
  destruct (in_dec (fun x y : line => ltac:(decide equality; apply (list_eq_dec Z.eq_dec))) LongLine (file_lines a)) as [I|I].
  - split; [split|].
    + intro H. now apply long_line_stops in H.
    + intros [H _]. exfalso. pose proof (long_line_stops depth hint a L I []) as K. rewrite app_nil_r in K. now apply K.
    + intro H. exfalso. pose proof (long_line_stops depth hint a L I []) as K. rewrite app_nil_r in K. now apply K.
  - destruct (expand_concat depth hint a b L I) as (pre & Ea & Ec & St).
    unfold entries. rewrite Ea, Ec. rewrite (flat_app U (pre ++ [FLine []]) _ _ St).
    destruct (flat U (pre ++ [FLine []]) newBuilder) as [[b1 es1] r1] eqn:F1.
    assert (K : r1 = SOk -> idle b1).
    { intros ->. unfold stops_fail in St. apply Forall_app in St as [St _]. rewrite (flat_app U pre [FLine []] _ St) in F1.
      apply fbind_ok in F1 as (b0 & e0 & e1 & G1 & G2 & _). apply (single_flat _ _ _ _ _ St) in G1; [|cbn; auto].
      cbn in G2. destruct (close_open b0) as [[x y] r] eqn:C. destruct r; inversion G2; subst. eapply close_single; eassumption. }
    assert (Nw : idle newBuilder) by (repeat split).
    destruct (flat U (expand U fs depth hint (File b false)) newBuilder) as [[b2 es2] r2] eqn:F2. cbn [fst snd].
    split; [split|].
    + intro H. destruct r1; cbn in H; try discriminate H. split; [reflexivity|].
      destruct (flat U (expand U fs depth hint (File b false)) b1) as [[b3 es3] r3] eqn:F3. cbn in H. subst r3.
      destruct (alike_flat _ _ _ newBuilder _ _ (ordinary_expand _ _ _) (or_intror (conj (K eq_refl) Nw)) F3) as (x & F & _). congruence.
    + intros [-> ->]. destruct (alike_flat _ _ _ b1 _ _ (ordinary_expand _ _ _) (or_intror (conj Nw (K eq_refl))) F2) as (x & F & _).
      cbn [fbind]. rewrite F. reflexivity.
    + intros -> ->. destruct (alike_flat _ _ _ b1 _ _ (ordinary_expand _ _ _) (or_intror (conj Nw (K eq_refl))) F2) as (x & F & _).
      cbn [fbind]. rewrite F. reflexivity.
Qed.

(** They are also attributed to the same files. *)
Lemma erase_at : forall p es, map erase (map (at_path p) es) = es.
Proof. intros p es. rewrite map_map. rewrite <- (map_id es) at 2. apply map_ext. intros []; reflexivity. Qed.
Lemma attributed_flat : forall ls b b' evs r, stops_fail (map snd ls) -> attributed U ls b = (b', evs, r) -> flat U (map snd ls) b = (b', map erase evs, r).
Proof.
  induction ls as [|[p x] ls IH]; intros b b' evs r F H; cbn [map snd attributed] in *.
  - inversion H; subst. reflexivity.
  - inversion_clear F as [|? ? N F']. change (x :: map snd ls) with ([x] ++ map snd ls). rewrite flat_app by (repeat constructor; exact N).
    destruct (flat U [x] b) as [[b1 es1] r1]. destruct r1; try (inversion H; subst; rewrite erase_at; reflexivity).
    destruct (attributed U ls b1) as [[b2 evs2] r2] eqn:A. inversion H; subst. cbn [fbind]. rewrite (IH _ _ _ _ F' A).
    now rewrite map_app, erase_at.
Qed.
Lemma alike_attributed : forall ls b b' x evs, Forall (ordinary U) (map snd ls) -> alike b b' -> attributed U ls b = (x, evs, SOk) ->
  exists x', attributed U ls b' = (x', evs, SOk).
Proof.
  induction ls as [|[p y] ls IH]; intros b b' x evs F A H; cbn [map snd attributed] in *.
  - inversion H; subst. exists b'. reflexivity.
  - inversion_clear F as [|? ? N F']. destruct (flat U [y] b) as [[b1 es1] r1] eqn:E. destruct r1; try discriminate H.
    destruct (alike_flat U [y] b b' _ _ (Forall_cons _ N (Forall_nil _)) A E) as (b1' & -> & A1).
    destruct (attributed U ls b1) as [[b2 evs2] r2] eqn:E2. inversion H; subst.
    destruct (IH _ _ _ _ F' A1 E2) as (x' & ->). eauto.
Qed.

Definition tag_inc (d : nat) (top : str) : str -> list tline :=
  match d with
  | O => fun path => [(path, FStop SDeep)]
  | Datatypes.S d => fun path => match fs path with None => [(path, FStop (SErr (EOpen path)))] | Some f' => tag U fs d top path f' end
  end.
Lemma tag_inc_of : forall d top hint f, tag U fs d top hint f = tag_lines U (tag_inc d top) top hint hint (f_bad f) (file_lines (f_bytes f)).
Proof. now intros [|d] top hint f. Qed.
Lemma tag_lines_app : forall inc hint bad ls1 ls2, ~ In LongLine ls1 -> exists pre,
  tag_lines U inc hint hint hint false ls1 = pre ++ [(hint, FLine [])] /\
  tag_lines U inc hint hint hint bad (ls1 ++ ls2) = pre ++ tag_lines U inc hint hint hint bad ls2.
Proof.
  intros inc hint bad. induction ls1 as [|[l|] ls1 IH]; intros ls2 N; cbn [app tag_lines].
  - exists []. split; reflexivity.
  - destruct (IH ls2) as (pre & E1 & E2); [intro; apply N; now right|]. rewrite E1, E2. destruct (included U hint l) as [p|].
    + exists (inc p ++ pre). now rewrite !app_assoc.
    + exists ((hint, FLine l) :: pre). split; reflexivity.
  - destruct N. now left.
Qed.
Lemma trace_attributed : forall depth hint f, snd (trace U fs depth hint f) = SOk ->
  exists b, attributed U (tag U fs depth hint hint f) newBuilder = (b, fst (trace U fs depth hint f), SOk).
Proof.
  intros depth hint f H. rewrite C20_exact. destruct (attributed U (tag U fs depth hint hint f) newBuilder) as [[b evs] r] eqn:A. exists b. cbn [fst snd].
  apply attributed_flat in A; [|rewrite tag_expand; apply expand_stops]. rewrite tag_expand in A.
  apply trace_ok_entries in H. unfold entries in H. rewrite A in H. cbn in H. now rewrite H.
Qed.

Theorem C75_attribution : forall depth hint a b, line_start a ->
  let read text := trace U fs depth hint (File text false) in
  snd (read a) = SOk -> snd (read b) = SOk -> fst (read (a ++ LF :: b)) = fst (read a) ++ fst (read b).
Proof.
  intros depth hint a b L read Ha Hb. unfold read in *.
  assert (I : ~ In LongLine (file_lines a)).
  { intro I. pose proof (long_line_stops depth hint a L I []) as K. rewrite app_nil_r in K. apply K. now apply trace_ok_entries. }
  destruct (trace_attributed _ _ _ Ha) as (b1 & A1). destruct (trace_attributed _ _ _ Hb) as (b2 & A2).
  rewrite (C20_exact U fs depth hint (File (a ++ LF :: b) false)).
  rewrite tag_inc_of in A1 |- *. cbn [f_bad f_bytes] in *. rewrite (file_lines_start a (LF :: b) L).
  change (LF :: b) with ([LF] ++ b). rewrite (file_lines_start [LF] b) by (right; exists []; reflexivity).
  destruct (tag_lines_app (tag_inc depth hint) hint false (file_lines a) (file_lines [LF] ++ file_lines b) I) as (pre & E1 & E2).
  rewrite E2. rewrite E1 in A1. change (file_lines [LF] ++ file_lines b) with (Line [] :: file_lines b). cbn [tag_lines].
  replace (included U hint []) with (@None str) by reflexivity.
  change ((hint, FLine []) :: tag_lines U (tag_inc depth hint) hint hint hint false (file_lines b)) with
    ([(hint, FLine [])] ++ tag_lines U (tag_inc depth hint) hint hint hint false (file_lines b)).
  rewrite app_assoc, attributed_app, A1.
  pose proof (tag_inc_of depth hint hint (File b false)) as T. cbn [f_bad f_bytes] in T. rewrite <- T.
  assert (Id : idle b1).
  { assert (Ea : map snd (pre ++ [(hint, FLine [])]) = expand U fs depth hint (File a false)).
    { rewrite <- E1. rewrite <- (tag_expand U fs depth hint hint (File a false)). now rewrite tag_inc_of. }
    assert (St : stops_fail (map snd pre ++ [FLine []])).
    { rewrite map_app in Ea. cbn in Ea. rewrite Ea. apply expand_stops. }
    apply attributed_flat in A1; [|rewrite map_app; exact St]. rewrite map_app in A1. cbn [map snd] in A1.
    pose proof St as St0. apply Forall_app in St0 as [St0 _].
    rewrite flat_app in A1 by exact St0. apply fbind_ok in A1 as (b0 & e0 & e1 & G1 & G2 & _).
    apply (single_flat _ _ _ _ _ St0) in G1; [|cbn; auto].
    cbn in G2. destruct (close_open b0) as [[x y] r] eqn:C. destruct r; inversion G2; subst. eapply close_single; eassumption. }
  destruct (alike_attributed _ newBuilder b1 _ _ ltac:(rewrite tag_expand; apply ordinary_expand) (or_intror (conj (conj eq_refl (conj eq_refl eq_refl)) Id)) A2) as (x & A3).
  rewrite A3. reflexivity.
Qed.

(** The blank line is not needed, if both can be read. *)
Theorem C75_end_to_end : forall depth hint a b, line_start a ->
  let read text := trace U fs depth hint (File text false) in
  snd (read a) = SOk -> snd (read b) = SOk ->
  snd (read (a ++ b)) = SOk /\
  map erase (fst (read (a ++ b))) = map erase (fst (read a)) ++ map erase (fst (read b)).
Proof.
  intros depth hint a b L read. unfold read.
  rewrite !trace_ok_entries. rewrite !(fun f => proj1 (trace_flat U fs depth hint f)). intros Ha Hb.
  assert (I : ~ In LongLine (file_lines a)).
  { intro I. pose proof (long_line_stops depth hint a L I []) as K. rewrite app_nil_r in K. now apply K. }
  destruct (expand_append depth hint a b L I) as (pre & Ea & Ec & St).
  pose proof (ordinary_expand depth hint (File b false)) as Or.
  unfold entries in *. rewrite Ea in *. rewrite Ec. rewrite (flat_app U pre [FLine []] _ St) in *. rewrite (flat_app U pre _ _ St).
  destruct (flat U pre newBuilder) as [[b0 e0] r0] eqn:F0. destruct r0; try discriminate Ha.
  pose proof (single_flat _ _ _ _ _ St (idle_single newBuilder (conj eq_refl (conj eq_refl eq_refl))) F0) as Sg.
  assert (Bl : forall x, flat U [FLine []] x = fbind (close_open x) (fun y => (y, [], SOk))).
  { intro x. cbn. rewrite !fbind_ret. reflexivity. }
  cbn [fbind] in *. rewrite Bl in *. destruct (close_open b0) as [[b1 e1] r1] eqn:C. destruct r1; try discriminate Ha. cbn [fbind] in *. clear Ha.
  pose proof (close_single _ _ _ Sg C) as Id.
  destruct (flat U (expand U fs depth hint (File b false)) newBuilder) as [[b2 e2] r2] eqn:F2. cbn [snd] in Hb. subst r2.
  destruct (alike_flat _ _ _ b1 _ _ Or (or_intror (conj ((conj eq_refl (conj eq_refl eq_refl)) : idle newBuilder) Id)) F2) as (x & F & _).
  destruct (expand_blank _ _ _ _ _ F2) as (ls & El). rewrite El in *. apply Forall_app in Or as [Or _].
  assert (St' : stops_fail ls).
  { unfold stops_fail. eapply Forall_impl; [|exact Or]. intros [l|r] K; cbn in K; congruence. }
  rewrite (flat_app U ls _ _ St') in F. apply fbind_ok in F as (b3 & e3 & e4 & F3 & F4 & ->).
  rewrite (flat_app U ls _ _ St').
  destruct (open_flat _ _ _ _ _ _ _ Or C Id F3) as [->|(-> & -> & ->)].
  - cbn [fbind]. rewrite F4. cbn [fst snd]. split; [reflexivity|]. now rewrite !app_nil_r, <- !app_assoc.
  - cbn [fbind] in *. rewrite Bl in *. rewrite C. rewrite (close_idle _ Id) in F4. cbn [fbind] in *. inversion F4; subst. cbn [fst snd].
    split; [reflexivity|]. now rewrite !app_nil_r.
Qed.
End Files.

Definition journal_a : str := lit "~ 2021-03" ++ [10] ++ lit "  Food  $10" ++ [10].
Definition journal_b : str := lit "; notes" ++ [10] ++ lit "2021-03-01 Shop" ++ [10] ++ lit "  Food  $5" ++ [10] ++ lit "  Cash" ++ [10].
Example C75_example : let read text := trace U0 no_files 5 (lit "j") (File text false) in
  line_start journal_a /\ snd (read journal_a) = SOk /\ snd (read journal_b) = SOk /\
  length (fst (read (journal_a ++ journal_b))) = 2%nat /\ length (fst (read journal_a)) = 1%nat.
Proof.
  split; [right; eexists (lit "~ 2021-03" ++ [10] ++ lit "  Food  $10"); reflexivity|]. repeat split; vm_compute; reflexivity.
Qed.

(** Without the blank line, the second text may go on with the last transaction of
    the first. *)
Theorem C75_blank_needed : exists a b, let read text := trace U0 no_files 5 (lit "j") (File text false) in
  line_start a /\ snd (read (a ++ b)) = SOk /\ snd (read a) = SOk /\ snd (read b) = SPanic.
Proof.
  exists (lit "2021-03-01 Shop" ++ [10] ++ lit "  Food  $5" ++ [10] ++ lit "  Cash" ++ [10]), (lit "  ; seen" ++ [10]).
  split; [right; exists (lit "2021-03-01 Shop" ++ [10] ++ lit "  Food  $5" ++ [10] ++ lit "  Cash"); reflexivity|].
  repeat split; vm_compute; reflexivity.
Qed.
