(** * The parser with any handlers is a fold over one stream of events *)
From Verif Require Import Base BaseFacts Utf8 Unicode GoTime Strconv Journal Lexer Parser.

(** Errors without the locations wrapped around them. *)
Fixpoint strip (e : err) : err :=
  match e with
  | EAt _ _ e' => strip e'
  | EErrorAt e' => strip e'
  | _ => e
  end.
Definition strip_st (r : status) : status := wrap_err strip r.

Lemma strip_wrap_at : forall h n r, strip_st (wrap_err (EAt h n) r) = strip_st r.
Proof. now destruct r. Qed.
Lemma strip_wrap_error : forall r, strip_st (wrap_err EErrorAt r) = strip_st r.
Proof. now destruct r. Qed.
Lemma strip_ok : forall r, strip_st r = SOk -> r = SOk.
Proof. now destruct r. Qed.
Lemma strip_idem : forall r, strip_st (strip_st r) = strip_st r.
Proof.
  destruct r; cbn; try reflexivity. f_equal. induction e; cbn; congruence.
Qed.

Section Fold.
Context {S : Type}.
Variable U : unicode.
Variable fs : str -> option file.
Variable th : option (S -> transaction -> str -> S * status).
Variable ph : option (S -> ptransaction -> str -> S * status).

(** What one event does to the handler's state. *)
Definition deliver (s : S) (ev : event) : S * status :=
  match ev with
  | ETxn t p => match th with Some h => h s t p | None => (s, SOk) end
  | EPer t p => match ph with Some h => h s t p | None => (s, SOk) end
  end.

(** Delivering events in order until one fails. *)
Fixpoint deliver_all (s : S) (evs : list event) : S * status :=
  match evs with
  | [] => (s, SOk)
  | ev :: evs' =>
      let '(s', r) := deliver s ev in
      match r with SOk => deliver_all s' evs' | _ => (s', r) end
  end.

Lemma deliver_all_app : forall evs evs' s,
  deliver_all s (evs ++ evs') =
  let '(s', r) := deliver_all s evs in
  match r with SOk => deliver_all s' evs' | _ => (s', r) end.
Proof.
  induction evs as [|ev evs IH]; intros; cbn; [reflexivity|].
  destruct (deliver s ev) as [s' []]; auto.
Qed.

Notation rstate := (pstate (list event)).

Definition sim (stA : rstate) (stB : pstate S) (A : rstate * status) (B : pstate S * status) : Prop :=
  exists evs, ps_s (fst A) = ps_s stA ++ evs /\
    ps_s (fst B) = fst (deliver_all (ps_s stB) evs) /\
    match snd (deliver_all (ps_s stB) evs) with
    | SOk => ps_b (fst B) = ps_b (fst A) /\ ps_files (fst B) = ps_files (fst A) /\ snd B = snd A
    | r => strip_st (snd B) = strip_st r
    end.

Definition same (stA : rstate) (stB : pstate S) : Prop :=
  ps_b stB = ps_b stA /\ ps_files stB = ps_files stA.

Lemma sim_refl : forall stA stB stA' stB' r, same stA' stB' ->
  ps_s stA' = ps_s stA -> ps_s stB' = ps_s stB -> sim stA stB (stA', r) (stB', r).
Proof.
  intros. exists []. cbn. rewrite app_nil_r. unfold same in *. intuition.
Qed.

Definition bindr {T} (x : T * status) (k : T -> T * status) (w : status -> status) : T * status :=
  let '(st, r) := x in match r with SOk => k st | _ => (st, w r) end.

Lemma sim_bind : forall stA stB A B kA kB w,
  sim stA stB A B ->
  (forall stA' stB', same stA' stB' -> sim stA' stB' (kA stA') (kB stB')) ->
  (forall r, strip_st (w r) = strip_st r) ->
  sim stA stB (bindr A kA w) (bindr B kB w).
Proof.
  intros stA stB [stA1 rA] [stB1 rB] kA kB w (evs & EA & EB & H) K W. cbn [fst snd] in *.
  destruct (deliver_all (ps_s stB) evs) as [s1 r1] eqn:D. cbn [fst snd] in *.
  assert (r1 = SOk \/ r1 <> SOk) as [->|N] by (destruct r1; auto; right; discriminate).
  - destruct H as (Hb & Hf & ->).
    assert (rA = SOk \/ rA <> SOk) as [->|NA] by (destruct rA; auto; right; discriminate).
    + destruct (K stA1 stB1 (conj Hb Hf)) as (evs2 & EA2 & EB2 & H2). cbn [bindr].
      exists (evs ++ evs2). rewrite deliver_all_app, D, EA2, EA, app_assoc. rewrite EB in *. auto.
    + exists evs. rewrite D. cbn [snd fst]. destruct rA; try congruence; cbn; auto.
  - assert (exists more, ps_s (fst (bindr (stA1, rA) kA w)) = ps_s stA ++ evs ++ more) as (more & M).
    { destruct rA; try (exists []; cbn; now rewrite app_nil_r).
      destruct (K stA1 (PS (ps_b stA1) (ps_files stA1) s1)) as (m & Hm & _); [split; reflexivity|].
      exists m. cbn. rewrite Hm, EA. now rewrite app_assoc. }
    assert (strip_st rB = strip_st r1) as H' by (destruct r1; congruence || assumption). clear H.
    exists (evs ++ more). rewrite deliver_all_app, D. cbn [fst snd]. split; [assumption|].
    assert (rB <> SOk) by (intros ->; symmetry in H'; now apply strip_ok in H').
    replace (bindr (stB1, rB) kB w) with (stB1, w rB) by (destruct rB; congruence || reflexivity).
    cbn [fst snd]. rewrite <- W in H'.
    destruct r1; try congruence; auto.
Qed.

Lemma sim_wrap : forall stA stB A B w,
  sim stA stB A B -> (forall r, strip_st (w r) = strip_st r) -> w SOk = SOk ->
  sim stA stB (let '(st, r) := A in (st, w r)) (let '(st, r) := B in (st, w r)).
Proof.
  intros stA stB [stA1 rA] [stB1 rB] w (evs & EA & EB & H) W W0. cbn [fst snd] in *.
  exists evs. cbn [fst snd]. split; [assumption|]. split; [assumption|].
  destruct (snd (deliver_all (ps_s stB) evs)); rewrite ?W; auto.
  destruct H as (? & ? & ->). auto.
Qed.

Lemma endTransaction_sim : forall stA stB, same stA stB ->
  sim stA stB (endTransaction (Some rec_th) (Some rec_ph) stA) (endTransaction th ph stB).
Proof.
  intros [bA fA sA] [bB fB sB] [Hb Hf]. cbn in Hb, Hf. subst bB fB. unfold endTransaction.
  cbn [ps_b ps_files ps_s].
  destruct (b_type bA).
  - destruct (b_txn bA) as [t|]; [|now apply sim_refl].
    destruct (endNormalTransaction bA t) as [t' [e|]]; [now apply sim_refl|].
    cbn [rec_th]. exists [ETxn t' (last fA [])]. cbn [deliver_all deliver ps_s ps_b ps_files set_s].
    destruct th as [h|]; [|now cbn].
    destruct (h sB t' (last fA [])) as [s' []]; cbn; auto.
  - destruct (b_ptxn bA) as [t|]; [|now apply sim_refl].
    destruct (endNormalTransaction bA (pt_txn t)) as [t' [e|]]; [now apply sim_refl|].
    cbn [rec_ph]. exists [EPer (PTxn (pt_period t) t') (last fA [])].
    cbn [deliver_all deliver ps_s ps_b ps_files set_s].
    destruct ph as [h|]; [|now cbn].
    destruct (h sB _ (last fA [])) as [s' []]; cbn; auto.
Qed.

Lemma build_in_sim : forall stA stB i c, same stA stB ->
  sim stA stB (build_in stA i c) (build_in stB i c).
Proof.
  intros [bA fA sA] [bB fB sB] i c [Hb Hf]. cbn in Hb, Hf. subst bB fB. unfold build_in.
  cbn [ps_b]. destruct (build bA i c); now apply sim_refl.
Qed.

Definition inc_sim (incA : @includer (list event)) (incB : @includer S) : Prop :=
  forall path stA stB, same stA stB -> sim stA stB (incA path stA) (incB path stB).

Lemma parseItem_sim : forall incA incB, inc_sim incA incB -> forall i c stA stB, same stA stB ->
  sim stA stB (parseItem (Some rec_th) (Some rec_ph) incA stA i c) (parseItem th ph incB stB i c).
Proof.
  intros incA incB IS i c stA stB SM.
  assert (forall ty f, sim stA stB
    (bindr (endTransaction (Some rec_th) (Some rec_ph) stA)
       (fun st1 => let '(st2, r2) := build_in (set_b st1 (beginTransaction (ps_b st1) ty)) i c in
                   (st2, wrap_err f r2)) (fun r => r))
    (bindr (endTransaction th ph stB)
       (fun st1 => let '(st2, r2) := build_in (set_b st1 (beginTransaction (ps_b st1) ty)) i c in
                   (st2, wrap_err f r2)) (fun r => r))) as K.
  { intros ty f. apply sim_bind; [now apply endTransaction_sim| |auto].
    intros stA' stB' [Hb Hf]. unfold build_in. cbn [ps_b set_b]. rewrite Hb.
    destruct (build (beginTransaction (ps_b stA') ty) i c); apply sim_refl; try reflexivity;
      (split; [reflexivity|exact Hf]). }
  destruct i; cbn [parseItem];
    try (now apply endTransaction_sim); try (now apply build_in_sim).
  - apply (sim_bind stA stB _ _ (fun st' => (set_files st' (firstn 1 (ps_files st')), SOk))
             (fun st' => (set_files st' (firstn 1 (ps_files st')), SOk)) (fun r => r)).
    + destruct stA as [bA fA sA], stB as [bB fB sB], SM as [Hb Hf]. cbn in Hb, Hf. subst bB fB.
      cbn [set_files ps_files ps_b ps_s].
      destruct (IS (encode c) (PS bA (fA ++ [encode c]) sA) (PS bA (fA ++ [encode c]) sB)) as (evs & H);
        [split; reflexivity|]. exists evs. exact H.
    + intros stA' stB' [Hb Hf]. apply sim_refl; try reflexivity.
      split; cbn; [assumption|now rewrite Hf].
    + auto.
  - apply (K normalTransaction EParsingDate).
  - apply (K periodicTransaction EParsingPeriod).
Qed.

Lemma parseItems_sim : forall incA incB, inc_sim incA incB -> forall items e stA stB, same stA stB ->
  sim stA stB (parseItems (Some rec_th) (Some rec_ph) incA stA items e) (parseItems th ph incB stB items e).
Proof.
  intros incA incB IS. induction items as [|[i c] items IH]; intros e stA stB SM; cbn [parseItems].
  - now apply sim_refl.
  - apply (sim_bind stA stB _ _ (fun st' => parseItems (Some rec_th) (Some rec_ph) incA st' items e)
             (fun st' => parseItems th ph incB st' items e) (fun r => r)); auto.
    now apply parseItem_sim.
Qed.

Lemma lexLines_sim : forall incA incB, inc_sim incA incB -> forall hint bad ls n stA stB, same stA stB ->
  sim stA stB (lexLines U (Some rec_th) (Some rec_ph) incA hint bad n ls stA)
              (lexLines U th ph incB hint bad n ls stB).
Proof.
  intros incA incB IS hint bad. induction ls as [|[l|] ls IH]; intros n stA stB SM; cbn [lexLines].
  - destruct bad; [now apply sim_refl|now apply (parseItem_sim incA incB)].
  - destruct (lexLine U hint l) as [items e].
    apply (sim_bind stA stB _ _ (lexLines U (Some rec_th) (Some rec_ph) incA hint bad (n + 1) ls)
             (lexLines U th ph incB hint bad (n + 1) ls) (wrap_err (EAt hint n))).
    + now apply parseItems_sim.
    + intros. now apply IH.
    + intros. apply strip_wrap_at.
  - now apply sim_refl.
Qed.

Lemma run_file_sim : forall depth hint f stA stB, same stA stB ->
  sim stA stB (run_file U fs (Some rec_th) (Some rec_ph) depth hint f stA)
              (run_file U fs th ph depth hint f stB).
Proof.
  induction depth as [|d IH]; intros hint f stA stB SM; cbn [run_file];
    apply lexLines_sim; try assumption; intros path stA' stB' SM'.
  - now apply sim_refl.
  - destruct (fs path) as [f'|]; [|now apply sim_refl].
    apply (sim_wrap stA' stB' _ _ (wrap_err EErrorAt)); auto using strip_wrap_error.
Qed.

(** Parsing with the handlers [th] and [ph] is delivering the events of the
    trace, in order, until a handler fails. *)
Theorem parse_fold : forall depth hint f s,
  let '(evs, r) := trace U fs depth hint f in
  let '(s', r') := deliver_all s evs in
  fst (parse U fs th ph depth hint f s) = s' /\
  match r' with
  | SOk => snd (parse U fs th ph depth hint f s) = r
  | _ => strip_st (snd (parse U fs th ph depth hint f s)) = strip_st r'
  end.
Proof.
  intros. unfold trace, parse.
  pose proof (run_file_sim depth hint f (PS newBuilder [hint] []) (PS newBuilder [hint] s)
                (conj eq_refl eq_refl)) as (evs & EA & EB & H).
  destruct (run_file U fs (Some rec_th) (Some rec_ph) depth hint f (PS newBuilder [hint] [])) as [sa ra].
  destruct (run_file U fs th ph depth hint f (PS newBuilder [hint] s)) as [sb rb].
  cbn [fst snd ps_s app] in *. subst evs.
  destruct (deliver_all s (ps_s sa)) as [s' r']. cbn [fst snd] in *. split; [assumption|].
  destruct r'; rewrite ?strip_wrap_error; auto. now destruct H as (_ & _ & ->).
Qed.

End Fold.
