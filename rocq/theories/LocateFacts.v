(** * Where reading stops is determined, and there it stops *)
From Verif Require Import Base BaseFacts Utf8 Unicode GoTime Strconv Journal Lexer Parser ParserFacts FlatSpec FlatFacts InputFacts.

Section Locate.
Variables (U : unicode) (fs : str -> option file).
Notation located := (located U fs).
Notation inc_of := (inc_of U fs).

(** The lines before the [k]th are read, the [k]th is not. *)
Definition stops_at (d : nat) (b : builder) (hint : str) (f : file) (k : nat) (b1 : builder) : Prop :=
  exists x es, nth_error (file_lines (f_bytes f)) k = Some x /\
    flat U (flat_map (line_exp U (inc_of d) hint) (firstn k (file_lines (f_bytes f)))) b = (b1, es, SOk) /\
    snd (flat U (line_exp U (inc_of d) hint x) b1) <> SOk.

Lemma one_stops : forall d hint x, stops_fail (line_exp U (inc_of d) hint x).
Proof. intros d hint x. pose proof (line_exp_stops U fs d hint [x]) as H. cbn [flat_map] in H. now rewrite app_nil_r in H. Qed.

Lemma firstn_split : forall A (l : list A) k x m, nth_error l k = Some x -> (k < m)%nat -> exists more, firstn m l = firstn k l ++ x :: more.
Proof.
  intros A l k x m N Lt. apply nth_error_split in N as (l1 & l2 & -> & <-). rewrite !firstn_app, Nat.sub_diag, firstn_O, app_nil_r, firstn_all.
  rewrite firstn_all2 by lia. destruct (m - length l1)%nat as [|j] eqn:Q; [lia|]. exists (firstn j l2). reflexivity.
Qed.

Lemma stops_late : forall d b hint f k b1, stops_at d b hint f k b1 -> forall m b2 es,
  flat U (flat_map (line_exp U (inc_of d) hint) (firstn m (file_lines (f_bytes f)))) b = (b2, es, SOk) -> (m <= k)%nat.
Proof.
  intros d b hint f k b1 (x & es & N & F & B) m b2 es2 F2. destruct (Nat.leb_spec m k) as [Le|Lt]; [exact Le|]. exfalso.
  destruct (firstn_split _ _ _ _ _ N Lt) as [more E]. rewrite E, flat_map_app, flat_app, F in F2 by apply line_exp_stops.
  cbn [fbind flat_map] in F2. rewrite flat_app in F2 by apply one_stops.
  destruct (flat U (line_exp U (inc_of d) hint x) b1) as [[b3 es3] r]. cbn [snd] in B. destruct r; try discriminate. congruence.
Qed.

Lemma stops_unique : forall d b hint f k b1 k' b1', stops_at d b hint f k b1 -> stops_at d b hint f k' b1' -> k = k' /\ b1 = b1'.
Proof.
  intros d b hint f k b1 k' b1' H H'. assert (k = k').
  { apply Nat.le_antisymm.
    - destruct H as (x & es & _ & F & _). eapply stops_late; eassumption.
    - destruct H' as (x & es & _ & F & _). eapply stops_late; eassumption. }
  split; [assumption|]. subst k'. destruct H as (x & es & _ & F & _), H' as (x' & es' & _ & F' & _). congruence.
Qed.

Lemma stops_whole : forall d b hint f k b1 b2 es, stops_at d b hint f k b1 ->
  flat U (flat_map (line_exp U (inc_of d) hint) (file_lines (f_bytes f))) b = (b2, es, SOk) -> False.
Proof.
  intros d b hint f k b1 b2 es H F. rewrite <- (firstn_all (file_lines (f_bytes f))) in F.
  pose proof (stops_late _ _ _ _ _ _ H _ _ _ F) as Le. destruct H as (x & es2 & N & _).
  assert (nth_error (file_lines (f_bytes f)) k <> None) as X by (rewrite N; discriminate). apply nth_error_Some in X. lia.
Qed.

Lemma ok_no_long : forall d hint ls b b1 es, flat U (flat_map (line_exp U (inc_of d) hint) ls) b = (b1, es, SOk) -> ~ In LongLine ls.
Proof.
  intros d hint ls b b1 es F I. apply in_split in I as (l1 & l2 & ->). rewrite flat_map_app, flat_app in F by apply line_exp_stops.
  destruct (flat U (flat_map (line_exp U (inc_of d) hint) l1) b) as [[b2 es2] r]. destruct r; cbn [fbind flat_map line_exp app flat] in F; discriminate.
Qed.

(** Reading fails with an error at such a place. *)
Lemma expand_at : forall d hint f k x b b1 es, nth_error (file_lines (f_bytes f)) k = Some x ->
  flat U (flat_map (line_exp U (inc_of d) hint) (firstn k (file_lines (f_bytes f)))) b = (b1, es, SOk) -> x <> LongLine ->
  forall e, snd (flat U (line_exp U (inc_of d) hint x) b1) = SErr e -> snd (flat U (expand U fs d hint f) b) = SErr e.
Proof.
  intros d hint f k x b b1 es N F NL e B. rewrite expand_inc_of. apply nth_error_split in N as (l1 & l2 & E & K). rewrite E in *. subst k.
  rewrite firstn_app, Nat.sub_diag, firstn_O, app_nil_r, firstn_all in F.
  rewrite expand_lines_app by (eapply ok_no_long; eassumption). rewrite flat_app, F by apply line_exp_stops. cbn [fbind].
  change (x :: l2) with ([x] ++ l2). rewrite expand_lines_app by (intros [I|[]]; congruence). cbn [flat_map]. rewrite app_nil_r, flat_app by apply one_stops.
  destruct (flat U (line_exp U (inc_of d) hint x) b1) as [[b3 es3] r]. cbn [snd] in B. subst r. reflexivity.
Qed.

Lemma located_fails : forall d b hint f e, located d b hint f e -> exists e', snd (flat U (expand U fs d hint f) b) = SErr e'.
Proof.
  induction 1 as [d b hint f k l b1 es e N I Q Er|d b hint f k l b1 es p N I Fs Q|d b hint f k l b1 es p f2 e N I Fs Q Lo [e' IH]|d b hint f b1 es e Q Bad Er|d b hint f b1 es Q Bad].
  - exists e. eapply expand_at; try eassumption; [discriminate|]. cbn [line_exp]. rewrite I. cbn [flat].
    destruct (flat_line U l b1) as [[b3 es3] r]. cbn [snd] in Er. subst r. reflexivity.
  - exists (EOpen p). eapply expand_at; try eassumption; [discriminate|]. cbn [line_exp]. rewrite I. cbn [InputFacts.inc_of]. rewrite Fs. reflexivity.
  - exists e'. eapply expand_at; try eassumption; [discriminate|]. cbn [line_exp]. rewrite I. cbn [InputFacts.inc_of]. rewrite Fs. exact IH.
  - exists e. rewrite expand_inc_of, Bad. rewrite <- (app_nil_r (file_lines (f_bytes f))). rewrite expand_lines_app by (eapply ok_no_long; eassumption).
    rewrite flat_app, Q by apply line_exp_stops. cbn [fbind expand_lines flat].
    assert (flat_line U [] b1 = fbind (close_open b1) (fun b' => (b', [], SOk))) as -> by reflexivity.
    destruct (close_open b1) as [[b3 es3] r]. cbn [snd] in Er. subst r. reflexivity.
  - exists (ERead hint). rewrite expand_inc_of, Bad. rewrite <- (app_nil_r (file_lines (f_bytes f))). rewrite expand_lines_app by (eapply ok_no_long; eassumption).
    rewrite flat_app, Q by apply line_exp_stops. reflexivity.
Qed.

Lemma line_stops : forall d b hint f k l b1 es e, nth_error (file_lines (f_bytes f)) k = Some (Line l) -> included U hint l = None ->
  flat U (flat_map (line_exp U (inc_of d) hint) (firstn k (file_lines (f_bytes f)))) b = (b1, es, SOk) -> snd (flat_line U l b1) = SErr e ->
  stops_at d b hint f k b1.
Proof.
  intros d b hint f k l b1 es e N I Q Er. exists (Line l), es. repeat split; try assumption. cbn [line_exp]. rewrite I. cbn [flat].
  destruct (flat_line U l b1) as [[b3 es3] r]. cbn [snd] in Er. subst r. cbn. discriminate.
Qed.
Lemma open_stops : forall d b hint f k l b1 es p, nth_error (file_lines (f_bytes f)) k = Some (Line l) -> included U hint l = Some p -> fs p = None ->
  flat U (flat_map (line_exp U (inc_of (Datatypes.S d)) hint) (firstn k (file_lines (f_bytes f)))) b = (b1, es, SOk) ->
  stops_at (Datatypes.S d) b hint f k b1.
Proof.
  intros d b hint f k l b1 es p N I Fs Q. exists (Line l), es. repeat split; try assumption. cbn [line_exp]. rewrite I. cbn [InputFacts.inc_of]. rewrite Fs.
  cbn. discriminate.
Qed.
Lemma include_stops : forall d b hint f k l b1 es p f2 e, nth_error (file_lines (f_bytes f)) k = Some (Line l) -> included U hint l = Some p -> fs p = Some f2 ->
  flat U (flat_map (line_exp U (inc_of (Datatypes.S d)) hint) (firstn k (file_lines (f_bytes f)))) b = (b1, es, SOk) ->
  located d b1 p f2 e -> stops_at (Datatypes.S d) b hint f k b1.
Proof.
  intros d b hint f k l b1 es p f2 e N I Fs Q Lo. exists (Line l), es. repeat split; try assumption. cbn [line_exp]. rewrite I. cbn [InputFacts.inc_of]. rewrite Fs.
  apply located_fails in Lo as [e' ->]. discriminate.
Qed.

Lemma located_unique : forall d b hint f e, located d b hint f e -> forall e', located d b hint f e' -> e = e'.
Proof.
  induction 1 as [d b hint f k l b1 es e N I Q Er|d b hint f k l b1 es p N I Fs Q|d b hint f k l b1 es p f2 e N I Fs Q Lo IH|d b hint f b1 es e Q Bad Er|d b hint f b1 es Q Bad];
    intros e' L'.
  - pose proof (line_stops _ _ _ _ _ _ _ _ _ N I Q Er) as S1.
    inversion L' as [d' b' hint' f' k' l' b1' es' e0 N' I' Q' Er'|d' b' hint' f' k' l' b1' es' p' N' I' Fs' Q'|d' b' hint' f' k' l' b1' es' p' f2' e0 N' I' Fs' Q' Lo'|d' b' hint' f' b1' es' e0 Q' Bad' Er'|d' b' hint' f' b1' es' Q' Bad']; subst.
    + destruct (stops_unique _ _ _ _ _ _ _ _ S1 (line_stops _ _ _ _ _ _ _ _ _ N' I' Q' Er')) as [<- <-]. congruence.
    + destruct (stops_unique _ _ _ _ _ _ _ _ S1 (open_stops _ _ _ _ _ _ _ _ _ N' I' Fs' Q')) as [<- <-]. congruence.
    + destruct (stops_unique _ _ _ _ _ _ _ _ S1 (include_stops _ _ _ _ _ _ _ _ _ _ _ N' I' Fs' Q' Lo')) as [<- <-]. congruence.
    + destruct (stops_whole _ _ _ _ _ _ _ _ S1 Q').
    + destruct (stops_whole _ _ _ _ _ _ _ _ S1 Q').
  - pose proof (open_stops _ _ _ _ _ _ _ _ _ N I Fs Q) as S1.
    inversion L' as [d' b' hint' f' k' l' b1' es' e0 N' I' Q' Er'|d' b' hint' f' k' l' b1' es' p' N' I' Fs' Q'|d' b' hint' f' k' l' b1' es' p' f2' e0 N' I' Fs' Q' Lo'|d' b' hint' f' b1' es' e0 Q' Bad' Er'|d' b' hint' f' b1' es' Q' Bad']; subst.
    + destruct (stops_unique _ _ _ _ _ _ _ _ S1 (line_stops _ _ _ _ _ _ _ _ _ N' I' Q' Er')) as [<- <-]. congruence.
    + destruct (stops_unique _ _ _ _ _ _ _ _ S1 (open_stops _ _ _ _ _ _ _ _ _ N' I' Fs' Q')) as [<- <-]. congruence.
    + destruct (stops_unique _ _ _ _ _ _ _ _ S1 (include_stops _ _ _ _ _ _ _ _ _ _ _ N' I' Fs' Q' Lo')) as [<- <-]. congruence.
    + destruct (stops_whole _ _ _ _ _ _ _ _ S1 Q').
    + destruct (stops_whole _ _ _ _ _ _ _ _ S1 Q').
  - pose proof (include_stops _ _ _ _ _ _ _ _ _ _ _ N I Fs Q Lo) as S1.
    inversion L' as [d' b' hint' f' k' l' b1' es' e0 N' I' Q' Er'|d' b' hint' f' k' l' b1' es' p' N' I' Fs' Q'|d' b' hint' f' k' l' b1' es' p' f2' e0 N' I' Fs' Q' Lo'|d' b' hint' f' b1' es' e0 Q' Bad' Er'|d' b' hint' f' b1' es' Q' Bad']; subst.
    + destruct (stops_unique _ _ _ _ _ _ _ _ S1 (line_stops _ _ _ _ _ _ _ _ _ N' I' Q' Er')) as [<- <-]. congruence.
    + destruct (stops_unique _ _ _ _ _ _ _ _ S1 (open_stops _ _ _ _ _ _ _ _ _ N' I' Fs' Q')) as [<- <-]. congruence.
    + destruct (stops_unique _ _ _ _ _ _ _ _ S1 (include_stops _ _ _ _ _ _ _ _ _ _ _ N' I' Fs' Q' Lo')) as [<- <-].
      rewrite N in N'. injection N' as <-. rewrite I in I'. injection I' as <-. rewrite Fs in Fs'. injection Fs' as <-. now rewrite (IH _ Lo').
    + destruct (stops_whole _ _ _ _ _ _ _ _ S1 Q').
    + destruct (stops_whole _ _ _ _ _ _ _ _ S1 Q').
  - inversion L' as [d' b' hint' f' k' l' b1' es' e0 N' I' Q' Er'|d' b' hint' f' k' l' b1' es' p' N' I' Fs' Q'|d' b' hint' f' k' l' b1' es' p' f2' e0 N' I' Fs' Q' Lo'|d' b' hint' f' b1' es' e0 Q' Bad' Er'|d' b' hint' f' b1' es' Q' Bad']; subst; try congruence.
    + destruct (stops_whole _ _ _ _ _ _ _ _ (line_stops _ _ _ _ _ _ _ _ _ N' I' Q' Er') Q).
    + destruct (stops_whole _ _ _ _ _ _ _ _ (open_stops _ _ _ _ _ _ _ _ _ N' I' Fs' Q') Q).
    + destruct (stops_whole _ _ _ _ _ _ _ _ (include_stops _ _ _ _ _ _ _ _ _ _ _ N' I' Fs' Q' Lo') Q).
  - inversion L' as [d' b' hint' f' k' l' b1' es' e0 N' I' Q' Er'|d' b' hint' f' k' l' b1' es' p' N' I' Fs' Q'|d' b' hint' f' k' l' b1' es' p' f2' e0 N' I' Fs' Q' Lo'|d' b' hint' f' b1' es' e0 Q' Bad' Er'|d' b' hint' f' b1' es' Q' Bad']; subst; try congruence.
    + destruct (stops_whole _ _ _ _ _ _ _ _ (line_stops _ _ _ _ _ _ _ _ _ N' I' Q' Er') Q).
    + destruct (stops_whole _ _ _ _ _ _ _ _ (open_stops _ _ _ _ _ _ _ _ _ N' I' Fs' Q') Q).
    + destruct (stops_whole _ _ _ _ _ _ _ _ (include_stops _ _ _ _ _ _ _ _ _ _ _ N' I' Fs' Q' Lo') Q).
Qed.

Theorem located_trace : forall d hint f e, located d newBuilder hint f e -> snd (trace U fs d hint f) = SErr (EErrorAt e).
Proof.
  intros d hint f e Lo. pose proof (located_fails _ _ _ _ _ Lo) as [e' H]. pose proof (trace_flat U fs d hint f) as [_ TS].
  assert (EN : snd (entries U fs d hint f) = SErr e').
  { unfold entries. destruct (flat U (expand U fs d hint f) newBuilder) as [[? ?] ?]. exact H. }
  rewrite EN in TS. destruct (snd (trace U fs d hint f)) as [|e1| | |] eqn:T; try discriminate.
  apply trace_located in T as (e2 & -> & Lo2). now rewrite (located_unique _ _ _ _ _ Lo _ Lo2).
Qed.
End Locate.
