(** * Which file an entry is attributed to: C20 *)
From Verif Require Import Base BaseFacts Utf8 Unicode GoTime Strconv Journal Lexer Parser ParserFacts FlatSpec FlatFacts
  Spec JournalFacts LineFacts IncludeFacts InputFacts Sample PropsParser.

(** ** Specification *)

(** The lines of a journal as in [FlatSpec.expand], each with the file named by what
    it finishes: the file it is in, until that file's first include line; the main
    file [top] after it. *)
Definition tline := (str * fline)%type.

Section Spec.
Variable U : unicode.

Fixpoint tag_lines (inc : str -> list tline) (top cur hint : str) (bad : bool) (ls : list line) : list tline :=
  match ls with
  | [] => [(cur, if bad then FStop (SErr (ERead hint)) else FLine [])]
  | LongLine :: _ => [(cur, FStop SFatal)]
  | Line l :: ls' =>
      match included U hint l with
      | Some path => inc path ++ tag_lines inc top top hint bad ls'
      | None => (cur, FLine l) :: tag_lines inc top cur hint bad ls'
      end
  end.

Fixpoint tag (fs : str -> option file) (depth : nat) (top hint : str) (f : file) : list tline :=
  tag_lines
    (match depth with
     | O => fun path => [(path, FStop SDeep)]
     | S d => fun path => match fs path with
                          | None => [(path, FStop (SErr (EOpen path)))]
                          | Some f' => tag fs d top path f'
                          end
     end)
    top hint hint (f_bad f) (file_lines (f_bytes f)).

Definition at_path (p : str) (e : entry) : event :=
  match e with TxnEntry t => ETxn t p | PerEntry t => EPer t p end.

(** Reading tagged lines: what a line finishes carries its tag. *)
Fixpoint attributed (ls : list tline) (b : builder) : builder * list event * status :=
  match ls with
  | [] => (b, [], SOk)
  | (p, x) :: ls' =>
      let '(b1, es, r) := flat U [x] b in
      match r with
      | SOk => let '(b2, evs, r2) := attributed ls' b1 in (b2, map (at_path p) es ++ evs, r2)
      | _ => (b1, map (at_path p) es, r)
      end
  end.
End Spec.

(** The tags aside, these are the lines read. *)
Lemma tag_lines_expand : forall U inc finc, (forall p, map snd (inc p) = finc p) ->
  forall top hint bad ls cur, map snd (tag_lines U inc top cur hint bad ls) = expand_lines U finc hint bad ls.
Proof.
  intros U inc finc H top hint bad. induction ls as [|[l|] ls IH]; intro cur; cbn.
  - now destruct bad.
  - destruct (included U hint l); [rewrite map_app, IH, H; reflexivity|cbn; now rewrite IH].
  - reflexivity.
Qed.
Lemma tag_expand : forall U fs depth top hint f, map snd (tag U fs depth top hint f) = expand U fs depth hint f.
Proof.
  intros U fs. induction depth as [|d IH]; intros top hint f; cbn [tag expand]; apply tag_lines_expand; intro p; [reflexivity|].
  destruct (fs p); [apply IH|reflexivity].
Qed.

(** ** The parser attributes like this *)

Notation rstate := (pstate (list event)).

Definition lift (st : rstate) (F : fres) : rstate * status :=
  let '(b, es, r) := F in (PS b (ps_files st) (ps_s st ++ map (at_path (last (ps_files st) [])) es), r).

Lemma end_lift : forall st, endTransaction (Some rec_th) (Some rec_ph) st = lift st (close_open (ps_b st)).
Proof.
  intros [b fl s]. unfold endTransaction, close_open, lift. cbn [ps_b ps_files ps_s].
  destruct b as [ty tx pt cu pv]. cbn [b_type b_txn b_ptxn b_prev]. destruct ty.
  - destruct tx as [t|]; [|cbn; now rewrite app_nil_r].
    destruct (endNormalTransaction _ t) as [t' [e|]]; cbn; now rewrite ?app_nil_r.
  - destruct pt as [t|]; [|cbn; now rewrite app_nil_r].
    destruct (endNormalTransaction _ (pt_txn t)) as [t' [e|]]; cbn; now rewrite ?app_nil_r.
Qed.
Lemma build_lift : forall st i c, build_in st i c = lift st (built (ps_b st) i c).
Proof.
  intros [b fl s] i c. unfold build_in, built, lift. cbn [ps_b]. destruct (build b i c); cbn; now rewrite ?app_nil_r.
Qed.
Lemma item_lift : forall inc i c st, i <> includeItem -> i <> eofItem ->
  parseItem (Some rec_th) (Some rec_ph) inc st i c = lift st (flat_item (ps_b st) i c).
Proof.
  intros inc i c st N N'.
  assert (X : forall ty f,
    (let '(st1, r) := endTransaction (Some rec_th) (Some rec_ph) st in
      match r with SOk => let '(st2, r2) := build_in (set_b st1 (beginTransaction (ps_b st1) ty)) i c in (st2, wrap_err f r2) | _ => (st1, r) end) =
    lift st (fbind (close_open (ps_b st)) (fun b' => rewrap f (built (beginTransaction b' ty) i c)))).
  { intros ty f. rewrite end_lift. destruct (close_open (ps_b st)) as [[b1 es1] r1]. unfold lift at 1. destruct r1; try reflexivity.
    cbn [fbind ps_b set_b ps_files ps_s]. rewrite build_lift. cbn [ps_b set_b].
    destruct (built (beginTransaction b1 ty) i c) as [[b2 es2] r2]. unfold lift, rewrap, set_b. cbn [ps_files ps_s].
    now rewrite map_app, app_assoc. }
  destruct i; try contradiction; cbn [parseItem flat_item]; try apply build_lift; try apply end_lift; apply X.
Qed.
Lemma items_lift : forall inc items e st, Forall (fun x => fst x <> includeItem /\ fst x <> eofItem) items ->
  parseItems (Some rec_th) (Some rec_ph) inc st items e = lift st (flat_items (ps_b st) items e).
Proof.
  intros inc items e. induction items as [|[i c] items IH]; intros st F; cbn [parseItems flat_items].
  - destruct st as [b fl s]. cbn. now rewrite app_nil_r.
  - inversion_clear F as [|? ? [N N'] F']. rewrite item_lift by assumption.
    destruct (flat_item (ps_b st) i c) as [[b1 es1] r1]. unfold lift at 1. destruct r1; try reflexivity.
    cbn [fbind]. rewrite IH by assumption. cbn [ps_b]. destruct (flat_items b1 items e) as [[b2 es2] r2].
    unfold lift. cbn [ps_files ps_s]. now rewrite map_app, app_assoc.
Qed.

(** [A] did what [F] says. *)
Definition did (top : str) (st : rstate) (A : rstate * status) (F : builder * list event * status) : Prop :=
  let '(st', r') := A in let '(b, evs, r) := F in
  strip_st r' = strip_st r /\ ps_s st' = ps_s st ++ evs /\
  (r = SOk -> ps_b st' = b /\ hd_error (ps_files st') = Some top).

Section Files.
Variable U : unicode.
Variable fs : str -> option file.

Lemma attributed_app : forall l1 l2 b, attributed U (l1 ++ l2) b =
  let '(b1, evs, r) := attributed U l1 b in
  match r with SOk => let '(b2, evs2, r2) := attributed U l2 b1 in (b2, evs ++ evs2, r2) | _ => (b1, evs, r) end.
Proof.
  induction l1 as [|[p x] l1 IH]; intros l2 b; cbn [app attributed].
  - destruct (attributed U l2 b) as [[b2 evs2] r2]. reflexivity.
  - destruct (flat U [x] b) as [[b1 es] r]. destruct r; try reflexivity. rewrite IH.
    destruct (attributed U l1 b1) as [[b2 evs2] r2]. destruct r2; try reflexivity.
    destruct (attributed U l2 b2) as [[b3 evs3] r3]. now rewrite app_assoc.
Qed.

Lemma lines_attributed : forall inc tinc top,
  (forall path st, hd_error (ps_files st) = Some top -> last (ps_files st) [] = path ->
     did top st (inc path st) (attributed U (tinc path) (ps_b st))) ->
  forall hint bad ls n cur st, hd_error (ps_files st) = Some top -> last (ps_files st) [] = cur ->
  did top st (lexLines U (Some rec_th) (Some rec_ph) inc hint bad n ls st) (attributed U (tag_lines U tinc top cur hint bad ls) (ps_b st)).
Proof.
  intros inc tinc top HI hint bad. induction ls as [|[l|] ls IH]; intros n cur st T C; cbn [lexLines tag_lines].
  - destruct bad.
    + cbn. split; [reflexivity|]. split; [now rewrite app_nil_r|discriminate].
    + cbn [parseItem]. rewrite end_lift. cbn [attributed flat]. unfold flat_line.
      change (lexLine U [] []) with ([(emptyLineItem, @nil Z)], @None err). cbn [flat_items flat_item].
      destruct (close_open (ps_b st)) as [[b1 es1] r1]. unfold lift. rewrite C.
      destruct r1; cbn; rewrite ?app_nil_r; (split; [reflexivity|split; [reflexivity|]]); try discriminate. intros _. auto.
  - unfold included. destruct (lex_include_cases U hint l) as [(c & E)|[E F]].
    + rewrite E. cbn [parseItems parseItem].
      pose proof (HI (encode c) (set_files st (ps_files st ++ [encode c]))) as D. cbn [set_files ps_files ps_b] in D.
      rewrite attributed_app.
      assert (T' : hd_error (ps_files st ++ [encode c]) = Some top) by (destruct (ps_files st); [discriminate|exact T]).
      specialize (D T' (last_last _ _ _)). unfold set_files in *. cbn [ps_b ps_files ps_s] in *.
      destruct (inc (encode c) _) as [st' r']. destruct (attributed U (tinc (encode c)) (ps_b st)) as [[b1 evs1] r1].
      cbn [did ps_s] in D. destruct D as (D1 & D2 & D3).
      destruct r1.
      * cbn in D1. apply strip_ok in D1. subst r'. destruct (D3 eq_refl) as [<- D4]. cbn [ps_b].
        specialize (IH (n + 1) top (PS (ps_b st') (firstn 1 (ps_files st')) (ps_s st'))). cbn [ps_files ps_b ps_s] in IH.
        destruct (ps_files st') as [|f0 fl]; [discriminate|]. cbn in D4. inversion D4; subst f0. specialize (IH eq_refl eq_refl). cbn [firstn] in *.
        destruct (lexLines _ _ _ _ _ _ _ _ _) as [st2 r2]. destruct (attributed U _ (ps_b st')) as [[b2 evs2] r3].
        cbn [did ps_s] in IH. destruct IH as (I1 & I2 & I3). unfold did. split; [exact I1|]. split; [|exact I3]. rewrite I2, D2. now rewrite <- app_assoc.
      * destruct r'; try discriminate D1. cbn. split; [|split; [exact D2|discriminate]]. exact D1.
      * destruct r'; try discriminate D1. cbn. split; [|split; [exact D2|discriminate]]. exact D1.
      * destruct r'; try discriminate D1. cbn. split; [|split; [exact D2|discriminate]]. exact D1.
      * destruct r'; try discriminate D1. cbn. split; [|split; [exact D2|discriminate]]. exact D1.
    + assert (NI : match lexLine U hint l with ([(includeItem, path)], _) => Some (encode path) | _ => None end = None).
      { destruct (lexLine U hint l) as [[|[i c] [|? ?]] e]; try reflexivity; try (now destruct i).
        inversion_clear F as [|? ? [N _] _]. cbn in N. destruct i; try reflexivity. contradiction. }
      rewrite NI. cbn [attributed flat]. unfold flat_line. rewrite <- E. destruct (lexLine U hint l) as [items e]. cbn [fst] in F.
      rewrite (items_lift inc items e st F). destruct (flat_items (ps_b st) items e) as [[b1 es1] r1]. unfold lift. rewrite C.
      destruct r1; cbn [fbind].
      * specialize (IH (n + 1) cur (PS b1 (ps_files st) (ps_s st ++ map (at_path cur) es1)) T C). cbn [ps_b] in IH.
        destruct (lexLines _ _ _ _ _ _ _ _ _) as [st2 r2]. rewrite app_nil_r.
        destruct (attributed U _ b1) as [[b2 evs2] r3]. cbn [did ps_s] in *. destruct IH as (I1 & I2 & I3).
        split; [exact I1|]. split; [|exact I3]. rewrite I2. now rewrite <- app_assoc.
      * cbn. split; [reflexivity|split; [reflexivity|discriminate]].
      * cbn. split; [reflexivity|split; [reflexivity|discriminate]].
      * cbn. split; [reflexivity|split; [reflexivity|discriminate]].
      * cbn. split; [reflexivity|split; [reflexivity|discriminate]].
  - cbn. split; [reflexivity|]. split; [now rewrite app_nil_r|discriminate].
Qed.

Lemma file_attributed : forall depth top hint f st, hd_error (ps_files st) = Some top -> last (ps_files st) [] = hint ->
  did top st (run_file U fs (Some rec_th) (Some rec_ph) depth hint f st) (attributed U (tag U fs depth top hint f) (ps_b st)).
Proof.
  induction depth as [|d IH]; intros top hint f st T C; cbn [run_file tag]; apply lines_attributed; auto; intros path st' T' C'.
  - cbn. split; [reflexivity|]. split; [now rewrite app_nil_r|discriminate].
  - destruct (fs path) as [f'|]; [|cbn; split; [reflexivity|]; split; [now rewrite app_nil_r|discriminate]].
    pose proof (IH top path f' st' T' C') as D. destruct (run_file _ _ _ _ _ _ _ _) as [st2 r]. 
    destruct (attributed U _ (ps_b st')) as [[b evs] r2]. cbn [did] in *. destruct D as (D1 & D2 & D3). split; [|split; assumption].
    rewrite strip_wrap_error. exact D1.
Qed.

(** Exactly which file every entry carries: that of the line which finishes it (the
    blank line, the next header, or the end of the file), except that after an include
    line the main file takes the place of the file that includes. *)
Theorem C20_exact : forall depth hint f,
  fst (trace U fs depth hint f) = snd (fst (attributed U (tag U fs depth hint hint f) newBuilder)).
Proof.
  intros depth hint f. unfold trace, parse.
  pose proof (file_attributed depth hint hint f (PS newBuilder [hint] []) eq_refl eq_refl) as D. cbn [ps_b] in D.
  destruct (run_file _ _ _ _ _ _ _ _) as [st r]. destruct (attributed U _ newBuilder) as [[b evs] r2]. cbn in *. apply D.
Qed.
End Files.

(** With include lines in the main file only, it is the file the finishing line is
    in. *)
Fixpoint own_lines (U : unicode) (inc : str -> list tline) (hint : str) (bad : bool) (ls : list line) : list tline :=
  match ls with
  | [] => [(hint, if bad then FStop (SErr (ERead hint)) else FLine [])]
  | LongLine :: _ => [(hint, FStop SFatal)]
  | Line l :: ls' =>
      match included U hint l with
      | Some path => inc path ++ own_lines U inc hint bad ls'
      | None => (hint, FLine l) :: own_lines U inc hint bad ls'
      end
  end.
Fixpoint own (U : unicode) (fs : str -> option file) (depth : nat) (hint : str) (f : file) : list tline :=
  own_lines U
    (match depth with
     | O => fun path => [(path, FStop SDeep)]
     | S d => fun path => match fs path with
                          | None => [(path, FStop (SErr (EOpen path)))]
                          | Some f' => own U fs d path f'
                          end
     end)
    hint (f_bad f) (file_lines (f_bytes f)).
Definition includes_nothing (U : unicode) (hint : str) (f : file) : Prop :=
  forall l, In (Line l) (file_lines (f_bytes f)) -> included U hint l = None.

Theorem C20_one_level_partial : forall U fs depth hint f,
  (forall l p f', In (Line l) (file_lines (f_bytes f)) -> included U hint l = Some p -> fs p = Some f' -> includes_nothing U p f') ->
  fst (trace U fs depth hint f) = snd (fst (attributed U (own U fs depth hint f) newBuilder)).
Proof.
  intros U fs depth hint f H. rewrite C20_exact.
  assert (L : forall inc inc' top p bad ls cur, (forall l, In (Line l) ls -> included U p l = None) ->
    cur = p -> tag_lines U inc top cur p bad ls = own_lines U inc' p bad ls).
  { clear. intros inc inc' top p bad. induction ls as [|[l|] ls IH]; intros cur N ->; cbn; [reflexivity| |reflexivity].
    rewrite (N l) by now left. rewrite (IH p); auto. intros l' I. apply N. now right. }
  assert (F : forall d top p f', includes_nothing U p f' -> tag U fs d top p f' = own U fs d p f').
  { intros d top p f' N. destruct d as [|d]; cbn [tag own]; apply L; auto. }
  assert (M : forall inc inc' ls bad, (forall l p, In (Line l) ls -> included U hint l = Some p -> inc p = inc' p) ->
    tag_lines U inc hint hint hint bad ls = own_lines U inc' hint bad ls).
  { clear. intros inc inc' ls bad. induction ls as [|[l|] ls IH]; intro N; cbn; [reflexivity| |reflexivity].
    rewrite IH by (intros; eapply N; [right|]; eassumption). destruct (included U hint l) eqn:E; [|reflexivity].
    now rewrite (N l _ (or_introl eq_refl) E). }
  destruct depth as [|d]; cbn [tag own]; (apply (f_equal (fun x => snd (fst (attributed U x newBuilder)))); apply M; intros l p I E); [reflexivity|].
  destruct (fs p) as [f'|] eqn:G; [|reflexivity]. apply F. eapply H; eassumption.
Qed.

Definition split_disk : str -> option file := disk [(lit "a.j", lit "2020-01-05 Bank
  Assets:Cash    $1
  Income:Interest    $-1
")].
Definition split_main : file := File (lit "include a.j
2020-01-06 Shop
  Food    $1
  Assets:Cash
") false.
Example C20_one_level_example :
  (forall l p f', In (Line l) (file_lines (f_bytes split_main)) -> included U0 (lit "main.j") l = Some p -> split_disk p = Some f' ->
     includes_nothing U0 p f') /\
  map event_path (fst (trace U0 split_disk 5 (lit "main.j") split_main)) = [lit "a.j"; lit "main.j"].
Proof.
  split; [|vm_compute; reflexivity]. intros l p f' I E D. 
  assert (X : f' = File (lit "2020-01-05 Bank
  Assets:Cash    $1
  Income:Interest    $-1
") false /\ p = lit "a.j").
  { unfold split_disk, disk in D. cbn in I.
    destruct I as [X|[X|[X|[X|[]]]]]; inversion X; subst; vm_compute in E; try discriminate E. inversion E; subst. vm_compute in D. inversion D; subst. split; reflexivity. }
  destruct X as [-> ->]. intros l' I'. cbn in I'. destruct I' as [X|[X|[X|[]]]]; inversion X; subst; vm_compute; reflexivity.
Qed.
