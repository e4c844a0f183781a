(** * Where in the files an entry is handed over, and what becomes of a handler's error *)
From Verif Require Import Base BaseFacts Utf8 Unicode GoTime Strconv Journal Lexer Parser ParserFacts FlatSpec FlatFacts InputFacts PropsWhere.

(** The lines of a file but for its end. *)
Section RunLines.
Context {D : Type}.
Variables (U : unicode) (th : option (D -> transaction -> str -> D * status)) (ph : option (D -> ptransaction -> str -> D * status)).
Fixpoint run_lines (inc : @includer D) (hint : str) (n : Z) (ls : list line) (st : pstate D) : pstate D * status :=
  match ls with
  | [] => (st, SOk)
  | LongLine :: _ => (st, SFatal)
  | Line l :: ls' =>
      let '(items, e) := lexLine U hint l in
      bindr (parseItems th ph inc st items e) (run_lines inc hint (n + 1) ls') (wrap_err (EAt hint n))
  end.

Lemma lexLines_app : forall inc hint bad ls2 ls1 n st,
  lexLines U th ph inc hint bad n (ls1 ++ ls2) st =
  bindr (run_lines inc hint n ls1 st) (lexLines U th ph inc hint bad (n + Z.of_nat (length ls1)) ls2) (fun r => r).
Proof.
  intros inc hint bad ls2. induction ls1 as [|[l|] ls1 IH]; intros n st; cbn [app lexLines run_lines length].
  - cbn [bindr]. now rewrite Z.add_0_r.
  - destruct (lexLine U hint l) as [items e]. destruct (parseItems th ph inc st items e) as [st' r]. destruct r; try reflexivity.
    cbn [bindr]. rewrite IH. replace (n + 1 + Z.of_nat (length ls1)) with (n + Z.of_nat (S (length ls1))) by lia. reflexivity.
  - reflexivity.
Qed.
End RunLines.

Section Hand.
Variables (U : unicode) (fs : str -> option file).
Notation rstate := (pstate (list event)).

Definition rec_inc (d : nat) : @includer (list event) :=
  match d with
  | O => fun _ st' => (st', SDeep)
  | S d => fun path st' => match fs path with
      | None => (st', SErr (EOpen path))
      | Some f' => let '(st2, r) := run_file U fs (Some rec_th) (Some rec_ph) d path f' st' in (st2, wrap_err EErrorAt r)
      end
  end.

Lemma rec_inc_flat : forall d path st, fsim st (rec_inc d path st) (flat U (inc_of U fs d path) (ps_b st)).
Proof.
  intros [|d] path st; cbn [rec_inc inc_of]; [apply fsim_none; reflexivity|]. destruct (fs path) as [f'|]; [|apply fsim_none; reflexivity].
  pose proof (run_file_flat U fs d path f' st) as H.
  destruct (run_file U fs (Some rec_th) (Some rec_ph) d path f' st) as [st2 r].
  destruct (flat U (expand U fs d path f') (ps_b st)) as [[b es] r']. destruct H as (evs & E1 & E2 & E3 & E4). exists evs. cbn [fst snd] in *.
  rewrite strip_wrap_error. auto.
Qed.

Lemma run_lines_flat : forall d hint ls n st,
  fsim st (run_lines U (Some rec_th) (Some rec_ph) (rec_inc d) hint n ls st) (flat U (flat_map (line_exp U (inc_of U fs d) hint) ls) (ps_b st)).
Proof.
  intros d hint. induction ls as [|[l|] ls IH]; intros n st; cbn [run_lines flat_map].
  - apply fsim_none; reflexivity.
  - cbn [line_exp]. unfold included. destruct (lex_include_cases U hint l) as [[c E]|[E F]].
    + rewrite E. cbn [parseItems parseItem].
      apply fsim_bind_flat; [apply inc_of_stops| |intro; apply IH|intros; apply strip_wrap_at].
      pose proof (rec_inc_flat d (encode c) (set_files st (ps_files st ++ [encode c]))) as IS.
      destruct (rec_inc d (encode c) (set_files st (ps_files st ++ [encode c]))) as [st' r]. cbn [set_files ps_b] in IS.
      destruct (flat U (inc_of U fs d (encode c)) (ps_b st)) as [[b es] r']. destruct IS as (evs & E1 & E2 & E3 & E4). cbn [fst snd] in *. exists evs.
      destruct r; cbn; auto.
    + replace (match lexLine U hint l with
               | ([(includeItem, path)], _) => Some (encode path)
               | _ => None end) with (@None str).
      2:{ destruct (lexLine U hint l) as [[|[[] ?] [|]] ?]; try reflexivity.
          exfalso. apply Forall_inv in F as [F _]. now apply F. }
      cbn [app flat]. unfold flat_line. rewrite <- E. destruct (lexLine U hint l) as [items e]. cbn [fst] in F.
      apply fsim_bind; [now apply parseItems_flat|intro; apply IH|intro; apply strip_wrap_at].
  - cbn [line_exp app flat]. apply fsim_none; reflexivity.
Qed.

(** [handed d b hint f es e w]: reading the file [f] from the state [b], when [es] is
    finished, [e] is handed over; to an error of the handler [w] is added. *)
Inductive handed : nat -> builder -> str -> file -> list entry -> entry -> (err -> err) -> Prop :=
| HandLine : forall d b hint f before l rest b1 b2 es e,
    file_lines (f_bytes f) = before ++ Line l :: rest ->
    flat U (flat_map (line_exp U (inc_of U fs d) hint) before) b = (b1, es, SOk) -> close_open b1 = (b2, [e], SOk) ->
    (exists i c items x, lexLine U hint l = ((i, c) :: items, x) /\ (i = emptyLineItem \/ i = dateItem \/ i = periodItem)) ->
    handed d b hint f es e (EAt hint (Z.of_nat (length before) + 1))
| HandEnd : forall d b hint f b1 b2 es e,
    flat U (flat_map (line_exp U (inc_of U fs d) hint) (file_lines (f_bytes f))) b = (b1, es, SOk) -> f_bad f = false ->
    close_open b1 = (b2, [e], SOk) -> handed d b hint f es e (fun x => x)
| HandInclude : forall d b hint f before l rest b1 p f' es es' e w,
    file_lines (f_bytes f) = before ++ Line l :: rest -> included U hint l = Some p -> fs p = Some f' ->
    flat U (flat_map (line_exp U (inc_of U fs (S d)) hint) before) b = (b1, es, SOk) ->
    handed d b1 p f' es' e w ->
    handed (S d) b hint f (es ++ es') e (fun x => EAt hint (Z.of_nat (length before) + 1) (EErrorAt (w x))).

Section Handlers.
Context {D : Type}.
Variables (th : option (D -> transaction -> str -> D * status)) (ph : option (D -> ptransaction -> str -> D * status)).

Definition any_inc (d : nat) : @includer D :=
  match d with
  | O => fun _ st' => (st', SDeep)
  | S d => fun path st' => match fs path with
      | None => (st', SErr (EOpen path))
      | Some f' => let '(st2, r) := run_file U fs th ph d path f' st' in (st2, wrap_err EErrorAt r)
      end
  end.

Lemma any_inc_sim : forall d, inc_sim th ph (rec_inc d) (any_inc d).
Proof.
  intros [|d] path stA stB SM; cbn [rec_inc any_inc]; [now apply sim_refl|]. destruct (fs path) as [f'|]; [|now apply sim_refl].
  apply (sim_wrap th ph stA stB _ _ (wrap_err EErrorAt)); auto using strip_wrap_error. now apply run_file_sim.
Qed.

Lemma run_lines_sim : forall d hint ls n stA stB, same stA stB ->
  sim th ph stA stB (run_lines U (Some rec_th) (Some rec_ph) (rec_inc d) hint n ls stA) (run_lines U th ph (any_inc d) hint n ls stB).
Proof.
  intros d hint. induction ls as [|[l|] ls IH]; intros n stA stB SM; cbn [run_lines].
  - now apply sim_refl.
  - destruct (lexLine U hint l) as [items e]. apply sim_bind; [apply parseItems_sim; [apply any_inc_sim|exact SM]|intros; now apply IH|intros; apply strip_wrap_at].
  - now apply sim_refl.
Qed.

(** Lines that are read without a complaint, by a handler that has none. *)
Lemma run_lines_done : forall d hint ls n st b1 es,
  flat U (flat_map (line_exp U (inc_of U fs d) hint) ls) (ps_b st) = (b1, es, SOk) ->
  exists evs, map erase evs = es /\ forall s1, deliver_all th ph (ps_s st) evs = (s1, SOk) ->
    exists fl, run_lines U th ph (any_inc d) hint n ls st = (PS b1 fl s1, SOk).
Proof.
  intros d hint ls n st b1 es F. set (stA := PS (ps_b st) (ps_files st) (@nil event)).
  pose proof (run_lines_flat d hint ls n stA) as X. pose proof (run_lines_sim d hint ls n stA st (conj eq_refl eq_refl)) as Y.
  cbn [stA ps_b] in X. rewrite F in X. destruct X as (evs & E1 & E2 & E3 & E4). cbn [stA ps_s app] in E1.
  destruct Y as (evs2 & Y1 & Y2 & Y3). cbn [stA ps_s app] in Y1. rewrite E1 in Y1. subst evs2. exists evs. split; [exact E2|].
  intros s1 Dl. rewrite Dl in Y2, Y3. cbn [fst snd] in Y2, Y3. destruct Y3 as (B & Fl & R). change (strip_st SOk) with SOk in E4. apply strip_ok in E4.
  destruct (run_lines U th ph (any_inc d) hint n ls st) as [[b fl s] r]. cbn [fst snd ps_b ps_s ps_files] in *. subst.
  rewrite E4. eexists. reflexivity.
Qed.

Lemma end_fails : forall (st : pstate D) b2 e s2 x, close_open (ps_b st) = (b2, [e], SOk) ->
  deliver th ph (ps_s st) (at_path (last (ps_files st) []) e) = (s2, SErr x) ->
  endTransaction th ph st = (set_s st s2, SErr x).
Proof.
  intros [b fl s] b2 e s2 x C Dl. unfold close_open in C. unfold endTransaction. cbn [ps_b ps_files ps_s] in *. destruct (b_type b).
  - destruct (b_txn b) as [t|]; [|discriminate]. destruct (endNormalTransaction b t) as [t' [y|]]; [discriminate|]. injection C as _ <-.
    cbn [at_path deliver] in Dl. destruct th as [h|]; [|discriminate]. rewrite Dl. reflexivity.
  - destruct (b_ptxn b) as [t|]; [|discriminate]. destruct (endNormalTransaction b (pt_txn t)) as [t' [y|]]; [discriminate|]. injection C as _ <-.
    cbn [at_path deliver] in Dl. destruct ph as [h|]; [|discriminate]. rewrite Dl. reflexivity.
Qed.

Lemma run_file_any : forall d hint f st, run_file U fs th ph d hint f st = lexLines U th ph (any_inc d) hint (f_bad f) 1 (file_lines (f_bytes f)) st.
Proof. now intros [|d] hint f st. Qed.

Theorem handed_run : forall d b hint f es e w, handed d b hint f es e w -> forall st : pstate D, ps_b st = b ->
  exists evs p, map erase evs = es /\ forall s1 s2 x, deliver_all th ph (ps_s st) evs = (s1, SOk) ->
    deliver th ph s1 (at_path p e) = (s2, SErr x) ->
    exists st', run_file U fs th ph d hint f st = (st', SErr (w x)) /\ ps_s st' = s2.
Proof.
  induction 1 as [d b hint f before l rest b1 b2 es e FL F C (i & c & items & y & LX & I)|d b hint f b1 b2 es e F Bad C
    |d b hint f before l rest b1 p f' es es' e w FL In Fs F H IH]; intros st <-.
  - destruct (run_lines_done d hint before 1 st b1 es F) as (evs & Er & R). 
    exists evs.
    (* the files named do not depend on the handlers *)
    assert (P : exists p, forall s1, deliver_all th ph (ps_s st) evs = (s1, SOk) -> exists fl, last fl [] = p /\
      run_lines U th ph (any_inc d) hint 1 before st = (PS b1 fl s1, SOk)).
    { destruct (run_lines U th ph (any_inc d) hint 1 before st) as [[b0 fl s0] r] eqn:Q. exists (last fl []). intros s1 Dl.
      destruct (R s1 Dl) as [fl' X]. injection X as -> -> -> ->. exists fl'. auto. }
    destruct P as [p P]. exists p. split; [exact Er|]. intros s1 s2 x Dl Fa. destruct (P s1 Dl) as (fl & Lp & Q).
    rewrite run_file_any, FL, lexLines_app, Q. cbn [bindr lexLines]. rewrite LX. cbn [parseItems].
    pose proof (end_fails (PS b1 fl s1) b2 e s2 x C) as En. cbn [ps_s ps_files] in En. rewrite <- Lp in Fa. specialize (En Fa).
    assert (X : parseItem th ph (any_inc d) (PS b1 fl s1) i c = (set_s (PS b1 fl s1) s2, SErr x)).
    { destruct I as [->|[->| ->]]; cbn [parseItem]; rewrite En; reflexivity. }
    rewrite X. exists (set_s (PS b1 fl s1) s2). split; [|reflexivity]. cbn [wrap_err]. do 3 f_equal. lia.
  - destruct (run_lines_done d hint (file_lines (f_bytes f)) 1 st b1 es F) as (evs & Er & R). exists evs.
    assert (P : exists p, forall s1, deliver_all th ph (ps_s st) evs = (s1, SOk) -> exists fl, last fl [] = p /\
      run_lines U th ph (any_inc d) hint 1 (file_lines (f_bytes f)) st = (PS b1 fl s1, SOk)).
    { destruct (run_lines U th ph (any_inc d) hint 1 (file_lines (f_bytes f)) st) as [[b0 fl s0] r] eqn:Q. exists (last fl []). intros s1 Dl.
      destruct (R s1 Dl) as [fl' X]. injection X as -> -> -> ->. exists fl'. auto. }
    destruct P as [p P]. exists p. split; [exact Er|]. intros s1 s2 x Dl Fa. destruct (P s1 Dl) as (fl & Lp & Q).
    rewrite run_file_any. rewrite <- (app_nil_r (file_lines (f_bytes f))), lexLines_app, Q. cbn [bindr lexLines]. rewrite Bad. cbn [parseItem].
    pose proof (end_fails (PS b1 fl s1) b2 e s2 x C) as En. cbn [ps_s ps_files] in En. rewrite <- Lp in Fa. rewrite (En Fa).
    exists (set_s (PS b1 fl s1) s2). split; reflexivity.
  - destruct (run_lines_done (S d) hint before 1 st b1 es F) as (evs & Er & R).
    assert (LX : exists c, encode c = p /\ lexLine U hint l = ([(includeItem, c)], None)).
    { unfold included in In. destruct (lex_include_cases U hint l) as [[c E]|[E Fi]].
      - rewrite E in In. injection In as <-. eauto.
      - exfalso. destruct (lexLine U hint l) as [[|[[] ?] [|]] ?]; try discriminate. apply Forall_inv in Fi as [Fi _]. now apply Fi. }
    destruct LX as (c & Ec & LX).
    destruct (run_lines U th ph (any_inc (S d)) hint 1 before st) as [[b0 fl s0] r] eqn:Q.
    destruct (IH (PS b1 (fl ++ [p]) s0) eq_refl) as (evs' & p' & Er' & R'). exists (evs ++ evs'), p'.
    split; [now rewrite map_app, Er, Er'|]. intros s1 s2 x Dl Fa. rewrite deliver_all_app in Dl.
    destruct (deliver_all th ph (ps_s st) evs) as [s3 r3] eqn:D3. destruct r3; try discriminate.
    destruct (R s3 eq_refl) as [fl' X]. injection X as -> -> -> ->. cbn [ps_s] in R'. destruct (R' s1 s2 x Dl Fa) as (st' & RF & Ps).
    rewrite run_file_any, FL, lexLines_app, Q. cbn [bindr lexLines]. rewrite LX. cbn [parseItems parseItem any_inc set_files ps_files ps_b ps_s].
    rewrite Ec, Fs.
    match goal with |- context [run_file U fs th ph d p f' ?s] => change s with (PS b1 (fl' ++ [p]) s3) end. rewrite RF. cbn [wrap_err]. exists st'. split; [|exact Ps]. do 3 f_equal. lia.
Qed.
End Handlers.
End Hand.
