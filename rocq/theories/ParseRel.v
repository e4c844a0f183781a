(** * Two runs of the parser side by side

    If the handlers of two runs keep their states related and agree on the
    outcome, or the second one gives up in a state marked as escaped, then so do
    the whole runs. *)
From Verif Require Import Base Utf8 Unicode GoTime Strconv Journal Lexer Parser.

Section Rel.
Variable U : unicode.
Variable fs : str -> option file.
Variables S H : Type.
Variable th : option (S -> transaction -> str -> S * status).
Variable ph : option (S -> ptransaction -> str -> S * status).
Variable th' : option (H -> transaction -> str -> H * status).
Variable ph' : option (H -> ptransaction -> str -> H * status).
(** Related states while all goes well, and after a failure. *)
Variable R Rf : S -> H -> Prop.
Variable Esc : H -> Prop.
Hypothesis R_Rf : forall s h, R s h -> Rf s h.

Definition agree (A : S * status) (B : H * status) : Prop :=
  (snd A = snd B /\ Rf (fst A) (fst B) /\ (snd A = SOk -> R (fst A) (fst B))) \/ (snd B <> SOk /\ Esc (fst B)).

Definition run_t {X} (h : option (X -> transaction -> str -> X * status)) s t p := match h with Some f => f s t p | None => (s, SOk) end.
Definition run_p {X} (h : option (X -> ptransaction -> str -> X * status)) s t p := match h with Some f => f s t p | None => (s, SOk) end.
Hypothesis R_th : forall s h t p, R s h -> agree (run_t th s t p) (run_t th' h t p).
Hypothesis R_ph : forall s h t p, R s h -> agree (run_p ph s t p) (run_p ph' h t p).

(** The same for parser states. *)
Definition pagree (A : pstate S * status) (B : pstate H * status) : Prop :=
  (snd A = snd B /\ ps_b (fst A) = ps_b (fst B) /\ ps_files (fst A) = ps_files (fst B) /\
   Rf (ps_s (fst A)) (ps_s (fst B)) /\ (snd A = SOk -> R (ps_s (fst A)) (ps_s (fst B)))) \/
  (snd B <> SOk /\ Esc (ps_s (fst B))).
Definition prel (a : pstate S) (b : pstate H) : Prop := ps_b a = ps_b b /\ ps_files a = ps_files b /\ R (ps_s a) (ps_s b).

Lemma pagree_ret : forall a b r, prel a b -> pagree (a, r) (b, r).
Proof. intros a b r (X & Y & Z). left. cbn. split; [reflexivity|]. split; [exact X|]. split; [exact Y|]. auto. Qed.

Lemma pagree_bind : forall A B kA kB, pagree A B -> (forall a b, prel a b -> pagree (kA a) (kB b)) ->
  pagree (let '(st, r) := A in match r with SOk => kA st | _ => (st, r) end)
         (let '(st, r) := B in match r with SOk => kB st | _ => (st, r) end).
Proof.
  intros [a ra] [b rb] kA kB [(Q & X & Y & Z & W)|(Q & E)] K; cbn [fst snd] in *.
  - subst rb. destruct ra; try (left; cbn; auto; fail). apply K. split; [exact X|]. split; [exact Y|]. auto.
  - right. destruct rb; cbn; auto; contradiction.
Qed.

Lemma pagree_wrap : forall A B f, pagree A B ->
  pagree (let '(st, r) := A in (st, wrap_err f r)) (let '(st, r) := B in (st, wrap_err f r)).
Proof.
  intros [a ra] [b rb] f [(Q & X & Y & Z & W)|(Q & E)]; cbn [fst snd] in *.
  - subst rb. left. cbn. repeat split; auto. intro K. apply W. destruct ra; cbn in K; try discriminate; reflexivity.
  - right. cbn. split; [|exact E]. destruct rb; cbn; congruence.
Qed.

Lemma end_agree : forall a b, prel a b -> pagree (endTransaction th ph a) (endTransaction th' ph' b).
Proof.
  intros [ba fa sa] [bb fb sb] (X & Y & Z). cbn in X, Y, Z. subst bb fb. unfold endTransaction. cbn [ps_b ps_files ps_s].
  destruct (b_type ba).
  - destruct (b_txn ba) as [t|]; [|apply pagree_ret; repeat split; assumption].
    destruct (endNormalTransaction ba t) as [t' [e|]]; [apply pagree_ret; repeat split; assumption|].
    pose proof (R_th sa sb t' (last fa []) Z) as K. unfold run_t in K.
    destruct (match th with Some h => h sa t' (last fa []) | None => (sa, SOk) end) as [s1 r1].
    destruct (match th' with Some h => h sb t' (last fa []) | None => (sb, SOk) end) as [s2 r2].
    destruct K as [(Q & W & W2)|(Q & E)]; cbn [fst snd] in *.
    + subst r2. destruct r1; left; cbn; auto.
    + right. destruct r2; cbn; auto; contradiction.
  - destruct (b_ptxn ba) as [t|]; [|apply pagree_ret; repeat split; assumption].
    destruct (endNormalTransaction ba (pt_txn t)) as [t' [e|]]; [apply pagree_ret; repeat split; assumption|].
    pose proof (R_ph sa sb (PTxn (pt_period t) t') (last fa []) Z) as K. unfold run_p in K.
    destruct (match ph with Some h => h sa _ (last fa []) | None => (sa, SOk) end) as [s1 r1].
    destruct (match ph' with Some h => h sb _ (last fa []) | None => (sb, SOk) end) as [s2 r2].
    destruct K as [(Q & W & W2)|(Q & E)]; cbn [fst snd] in *.
    + subst r2. destruct r1; left; cbn; auto.
    + right. destruct r2; cbn; auto; contradiction.
Qed.

Lemma build_agree : forall a b i c, prel a b -> pagree (build_in a i c) (build_in b i c).
Proof.
  intros [ba fa sa] [bb fb sb] i c (X & Y & Z). cbn in X, Y, Z. subst bb fb. unfold build_in. cbn [ps_b].
  destruct (build ba i c); apply pagree_ret; repeat split; assumption.
Qed.

Definition inc_agree (iA : @includer S) (iB : @includer H) : Prop :=
  forall path a b, prel a b -> pagree (iA path a) (iB path b).

Lemma item_agree : forall iA iB, inc_agree iA iB -> forall i c a b, prel a b ->
  pagree (parseItem th ph iA a i c) (parseItem th' ph' iB b i c).
Proof.
  intros iA iB I i c a b P.
  assert (B : forall ty f, pagree
    (let '(st1, r) := endTransaction th ph a in
     match r with
     | SOk => let '(st2, r2) := build_in (set_b st1 (beginTransaction (ps_b st1) ty)) i c in (st2, wrap_err f r2)
     | _ => (st1, r)
     end)
    (let '(st1, r) := endTransaction th' ph' b in
     match r with
     | SOk => let '(st2, r2) := build_in (set_b st1 (beginTransaction (ps_b st1) ty)) i c in (st2, wrap_err f r2)
     | _ => (st1, r)
     end)).
  { intros ty f.
    apply (pagree_bind (endTransaction th ph a) (endTransaction th' ph' b)
      (fun st1 => let '(st2, r2) := build_in (set_b st1 (beginTransaction (ps_b st1) ty)) i c in (st2, wrap_err f r2))
      (fun st1 => let '(st2, r2) := build_in (set_b st1 (beginTransaction (ps_b st1) ty)) i c in (st2, wrap_err f r2))).
    - now apply end_agree.
    - intros a1 b1 (X & Y & Z). apply pagree_wrap. apply build_agree. split; [cbn; now rewrite X|]. auto. }
  destruct i; cbn [parseItem]; try (apply build_agree; assumption); try (apply end_agree; assumption); try apply B.
  apply (pagree_bind (iA _ _) (iB _ _)
    (fun st' => (set_files st' (firstn 1 (ps_files st')), SOk)) (fun st' => (set_files st' (firstn 1 (ps_files st')), SOk))).
  - apply I. destruct P as (X & Y & Z). split; [exact X|]. split; [cbn; now rewrite Y|exact Z].
  - intros a1 b1 (X & Y & Z). apply pagree_ret. split; [exact X|]. split; [cbn; now rewrite Y|exact Z].
Qed.

Lemma items_agree : forall iA iB, inc_agree iA iB -> forall items e a b, prel a b ->
  pagree (parseItems th ph iA a items e) (parseItems th' ph' iB b items e).
Proof.
  intros iA iB I. induction items as [|[i c] items IH]; intros e a b P; cbn [parseItems].
  - now apply pagree_ret.
  - apply (pagree_bind (parseItem th ph iA a i c) (parseItem th' ph' iB b i c)
      (fun st => parseItems th ph iA st items e) (fun st => parseItems th' ph' iB st items e)).
    + now apply item_agree.
    + intros. now apply IH.
Qed.

Lemma lines_agree : forall iA iB, inc_agree iA iB -> forall hint bad ls n a b, prel a b ->
  pagree (lexLines U th ph iA hint bad n ls a) (lexLines U th' ph' iB hint bad n ls b).
Proof.
  intros iA iB I hint bad. induction ls as [|[l|] ls IH]; intros n a b P; cbn [lexLines].
  - destruct bad; [now apply pagree_ret|now apply item_agree].
  - destruct (lexLine U hint l) as [items e]. pose proof (items_agree iA iB I items e a b P) as K.
    destruct (parseItems th ph iA a items e) as [a1 ra]. destruct (parseItems th' ph' iB b items e) as [b1 rb].
    destruct K as [(Q & X & Y & Z & W)|(Q & E)]; cbn [fst snd] in *.
    + subst rb. destruct ra; try (left; cbn; repeat split; auto; discriminate). apply IH. split; [exact X|]. split; [exact Y|]. auto.
    + right. destruct rb; [contradiction| | | |]; cbn; (split; [|exact E]); congruence.
  - now apply pagree_ret.
Qed.

Lemma file_agree : forall depth hint f a b, prel a b ->
  pagree (run_file U fs th ph depth hint f a) (run_file U fs th' ph' depth hint f b).
Proof.
  induction depth as [|d IH]; intros hint f a b P; cbn [run_file]; apply lines_agree; auto; intros path a1 b1 P1.
  - now apply pagree_ret.
  - destruct (fs path); [|now apply pagree_ret]. apply pagree_wrap. now apply IH.
Qed.

Theorem parse_agree : forall depth hint f s h, R s h ->
  agree (parse U fs th ph depth hint f s) (parse U fs th' ph' depth hint f h).
Proof.
  intros depth hint f s h Rs. unfold parse.
  pose proof (file_agree depth hint f (PS newBuilder [hint] s) (PS newBuilder [hint] h)) as K.
  destruct (run_file U fs th ph depth hint f (PS newBuilder [hint] s)) as [a ra].
  destruct (run_file U fs th' ph' depth hint f (PS newBuilder [hint] h)) as [b rb].
  destruct K as [(Q & X & Y & Z & W)|(Q & E)]; cbn [fst snd] in *.
  - repeat split; exact Rs.
  - subst rb. left. cbn. split; [reflexivity|]. split; [exact Z|]. intro K. apply W. destruct ra; cbn in K; try discriminate; reflexivity.
  - right. cbn. split; [|exact E]. destruct rb; cbn; congruence.
Qed.
End Rel.

(** Handlers that do the same make runs that do the same. *)
Lemma parse_ext : forall S U fs (th th' : S -> transaction -> str -> S * status) ph ph',
  (forall s t p, th s t p = th' s t p) -> (forall s t p, run_p ph s t p = run_p ph' s t p) ->
  forall depth hint f s, parse U fs (Some th) ph depth hint f s = parse U fs (Some th') ph' depth hint f s.
Proof.
  intros S U fs th th' ph ph' Ht Hp depth hint f s.
  pose proof (parse_agree U fs S S (Some th) ph (Some th') ph' eq eq (fun _ => False) (fun _ _ H => H)) as K.
  specialize (K) with (depth := depth) (hint := hint) (f := f) (s := s) (h := s).
  destruct K as [(Q & X & _)|(_ & [])].
  - intros s0 h t p <-. left. unfold run_t. rewrite Ht. auto.
  - intros s0 h t p <-. left. rewrite Hp. auto.
  - reflexivity.
  - destruct (parse _ _ (Some th) ph _ _ _ _), (parse _ _ (Some th') ph' _ _ _ _). cbn in *. congruence.
Qed.
