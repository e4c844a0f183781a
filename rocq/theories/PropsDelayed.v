(** * C141: print of a journal moved in time *)
From Coq Require Import Permutation.
From Verif Require Import Base BaseFacts GoTime CalendarFacts Strconv Journal JournalFacts Lexer Parser ParserFacts Account Reporting Cmd Spec TextSpec CmdSpec CmdFacts FlatSpec Sample PropsCmd PropsAgain
  GoSort SortFacts PropsSort DayFacts PropsPrinted PropsPostponed PropsSequence.

(** The same entry [k] days later *)
Definition delayed (k : Z) (t t' : transaction) : Prop := days_later k (t_date t) (t_date t') /\
  t_state t' = t_state t /\ t_payee t' = t_payee t /\ t_postings t' = t_postings t /\ t_headernote t' = t_headernote t /\ t_notes t' = t_notes t.
(** A printed entry: its date, and the rest of its text *)
Definition entry_text (e : date * str) : str :=
  four_digits (d_year (fst e)) ++ lit "-" ++ two_digits (d_month (fst e)) ++ lit "-" ++ two_digits (d_day (fst e)) ++ snd e.

Lemma fold_front : forall {A} (h : A -> str) l x y, fold_left (fun rs n => rs ++ h n) l (x ++ y) = x ++ fold_left (fun rs n => rs ++ h n) l y.
Proof. intros A h l. induction l as [|n l IH]; intros x y; cbn [fold_left]; [reflexivity|]. now rewrite <- app_assoc, IH. Qed.
Definition after_date (t : transaction) : str :=
  let rs0 := lit " " ++ stateToString (t_state t) ++ lit " " ++ t_payee t in
  let rs1 := match t_headernote t with [] => rs0 | n => rs0 ++ lit "    ; " ++ n end in
  let rs2 := fold_left (fun rs n => rs ++ ([newline] ++ lit "    ; " ++ n)) (t_notes t) rs1 in
  fold_left (fun rs p => rs ++ ([newline] ++ lit "    " ++ posting_string p)) (t_postings t) rs2 ++ [newline].
Lemma string_entry : forall t, transaction_string t = entry_text (t_date t, after_date t).
Proof.
  intro t. unfold transaction_string, after_date, entry_text. cbv zeta. cbn [fst snd].
  transitivity (format_date (t_date t) ++ after_date t); [|unfold format_date; rewrite <- !app_assoc; reflexivity].
  unfold after_date. cbv zeta. set (rs := match t_headernote t with [] => _ | _ => _ end) at 2.
  rewrite (app_assoc (format_date (t_date t)) (fold_left _ _ _) [newline]).
  rewrite <- (fold_front (fun p => [newline] ++ lit "    " ++ posting_string p)), <- (fold_front (fun n => [newline] ++ lit "    ; " ++ n)).
  subst rs. destruct (t_headernote t) as [|c n]; rewrite <- ?app_assoc; reflexivity.
Qed.

Lemma delayed_order : forall k ts ts', Forall2 (delayed k) ts ts' -> same_days_order ts ts'.
Proof.
  intros k ts ts' H. split; [induction H; cbn; congruence|].
  assert (N : forall i a a', nth_error ts i = Some a -> nth_error ts' i = Some a' -> after k (t_date a) (t_date a')).
  { induction H as [|t t' ts ts' (D & _) _ IH]; intros [|i] a a' A A'; cbn in A, A'; try discriminate; [|exact (IH i a a' A A')]. injection A as <-. injection A' as <-. now apply days_after. }
  intros i j a b a' b' A B A' B'. destruct (N i a a' A A') as (Ra & Ra' & Qa). destruct (N j b b' B B') as (Rb & Rb' & Qb).
  rewrite <- !instant_order by assumption. lia.
Qed.
Lemma places_related : forall {A} (R : A -> A -> Prop) l l' is r r', Forall2 R l l' -> at_places l is r -> at_places l' is r' -> Forall2 R r r'.
Proof.
  intros A R l l' is r r' H P. revert r'. induction P as [|i x is r X _ IH]; intros r' P'; inversion P' as [|? x' ? r2 X' P2]; subst; constructor; [|now apply IH].
  pose proof (nth_along R l l' H i) as K. rewrite X, X' in K. exact K.
Qed.

(** Two runs of print, the second of entries [k] days later: the same entries in
    the same order, with dates [k] days later and the same text after them. *)
Theorem C141_print : forall k E O fs sel E' O' fs' sel', sane_clock E -> orders E -> go_sort E -> filters_for E (o_args O) fs ->
  sane_clock E' -> orders E' -> go_sort E' -> filters_for E' (o_args O') fs' -> CmdSpec.readable E O -> CmdSpec.readable E' O' ->
  picks E O fs (txns 0 (fst (stream E O))) sel -> picks E' O' fs' (txns 0 (fst (stream E' O'))) sel' ->
  Forall2 (delayed k) (selected sel) (selected sel') ->
  exists es es', Forall2 (fun e e' => days_later k (fst e) (fst e') /\ snd e' = snd e) es es' /\
    print_cmd E O = Outcome (lines (map entry_text es)) SOk /\ print_cmd E' O' = Outcome (lines (map entry_text es')) SOk.
Proof.
  intros k E O fs sel E' O' fs' sel' C Or G F C' Or' G' F' R R' P P' D.
  destruct (C139_print E O fs sel E' O' fs' sel' C Or G F C' Or' G' F' R R' P P' (delayed_order _ _ _ D)) as (places & ts & ts' & _ & A & A' & Q & Q').
  pose proof (places_related _ _ _ _ _ _ D A A') as H. exists (map (fun t => (t_date t, after_date t)) ts), (map (fun t => (t_date t, after_date t)) ts').
  split; [|rewrite !map_map; split; [rewrite Q|rewrite Q']; do 2 f_equal; apply map_ext; apply string_entry].
  clear - H. induction H as [|t t' ts ts' (D & S & Y & W & X & N) _ IH]; cbn [map]; constructor; [|exact IH]. cbn [fst snd]. split; [exact D|].
  unfold after_date. now rewrite S, Y, W, X, N.
Qed.

Definition put_off (day payee : String.string) : str :=
  lit day ++ lit " " ++ lit payee ++ [10] ++ lit "  x  1" ++ [10] ++ lit "  y" ++ [10].
(** The seven transactions of C101, and the same 366 days earlier, in a leap year. *)
Definition early_seven : str :=
  put_off "2020-03-01" "a" ++ put_off "2020-03-01" "b" ++ put_off "2020-03-01" "c" ++ put_off "2020-03-01" "d" ++ put_off "2020-03-01" "e" ++ put_off "2020-03-01" "f" ++ put_off "2020-02-29" "g".
Example C141_example : let E := with_sort (env0 [(lit "j", early_seven)]) in let E' := with_sort (env0 [(lit "j", seven)]) in let O := opts0 "j" in
  exists sel sel', sane_clock E /\ orders E /\ go_sort E /\ filters_for E (o_args O) [] /\ sane_clock E' /\ orders E' /\ go_sort E' /\ filters_for E' (o_args O) [] /\
  CmdSpec.readable E O /\ CmdSpec.readable E' O /\ picks E O [] (txns 0 (fst (stream E O))) sel /\ picks E' O [] (txns 0 (fst (stream E' O))) sel' /\
  length sel = 7%nat /\ Forall2 (delayed 366) (selected sel) (selected sel') /\
  map (firstn 14) (r_out (print_cmd E O)) = map lit ["2020-02-29   g"; "2020-03-01   b"; "2020-03-01   c"; "2020-03-01   d"; "2020-03-01   e"; "2020-03-01   f"; "2020-03-01   a"]%string /\
  map (firstn 14) (r_out (print_cmd E' O)) = map lit ["2021-03-01   g"; "2021-03-02   b"; "2021-03-02   c"; "2021-03-02   d"; "2021-03-02   e"; "2021-03-02   f"; "2021-03-02   a"]%string.
Proof.
  cbv zeta. set (us := txns 0 (fst (stream (with_sort (env0 [(lit "j", early_seven)])) (opts0 "j")))). vm_compute in us.
  set (us' := txns 0 (fst (stream (with_sort (env0 [(lit "j", seven)])) (opts0 "j")))). vm_compute in us'.
  exists (map (fun u => (u, t_postings (u_txn u))) us), (map (fun u => (u, t_postings (u_txn u))) us').
  split; [apply env0_go|]. split; [apply env0_go|]. split; [apply env0_go|]. split; [apply makeFilters_spec; reflexivity|].
  split; [apply env0_go|]. split; [apply env0_go|]. split; [apply env0_go|]. split; [apply makeFilters_spec; reflexivity|].
  split; [apply readable_noflags; vm_compute; reflexivity|]. split; [apply readable_noflags; vm_compute; reflexivity|].
  split; [subst us; cbn [map]; repeat (apply PickIt; [apply plain_within; [apply plain0|vm_compute; discriminate]|reflexivity|reflexivity|reflexivity|]); apply PickNone|].
  split; [subst us'; cbn [map]; repeat (apply PickIt; [apply plain_within; [apply plain0|vm_compute; discriminate]|reflexivity|reflexivity|reflexivity|]); apply PickNone|].
  split; [reflexivity|]. split; [|split; vm_compute; reflexivity].
  assert (R : forall y d, 1 <= d <= 31 -> real_date (Date y 3 d)).
  { intros y d D. unfold real_date. cbn [d_month d_day]. left. cbn [In]. split; [tauto|lia]. }
  assert (L1 : days_later 366 (Date 2020 3 1) (Date 2021 3 2)) by (apply counted_days; [apply R; lia|apply R; lia|discriminate|reflexivity]).
  assert (L2 : days_later 366 (Date 2020 2 29) (Date 2021 3 1)).
  { apply counted_days; [|apply R; lia|discriminate|reflexivity]. unfold real_date. cbn [d_month d_day d_year]. right. right. right. split; [reflexivity|]. split; [reflexivity|]. split; [exists 505; reflexivity|left; intros [z Z]; lia]. }
  subst us us'. unfold selected. cbn [map]. repeat (apply Forall2_cons; [split; [first [exact L1|exact L2]|repeat split; reflexivity]|]). constructor.
Qed.
