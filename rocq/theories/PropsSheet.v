(** * The lines print prints: C100 *)
From Verif Require Import Base BaseFacts Utf8 Unicode GoTime Strconv Display Journal Lexer Parser ParserFacts Account Reporting Cmd Spec TextSpec
  StreamFacts PrintFacts CmdSpec CmdFacts Sample PropsCmd PropsText.

Definition state_mark (s : txn_state) : str :=
  match s with UnclearedState => lit "!" | ClearedState => lit "*" | NoState => lit " " end.
Definition remark (n : str) : str := lit "; " ++ n.

(** What package fmt puts in place of a text that cannot be made. *)
Definition notice : str := lit "%!s(PANIC=String method: runtime error: invalid memory address or nil pointer dereference)".

(** The amount of [q] hundredths: exact up to 70 million million, otherwise
    nearly (C05). *)
Definition nearly_money (q : Z) (s : str) : Prop :=
  exists q', money_text q' s /\ (q < 0 <-> q' < 0) /\ 2 ^ 52 * Z.abs (q' - q) <= Z.abs q + 2 ^ 52 /\ (Z.abs q <= 100 * 2 ^ 46 -> q' = q).

(** A posting: account and amount, then its comments; without amount neither
    the account nor the comments appear. *)
Inductive posting_sheet (p : posting) : list str -> Prop :=
| SheetPriced : forall c q m, po_amount p = Some (Amount c q) -> nearly_money q m ->
    posting_sheet p ((lit "    " ++ po_account p ++ lit "    " ++ c ++ m) :: map (fun n => lit "      " ++ remark n) (po_comments p))
| SheetUnpriced : po_amount p = None -> posting_sheet p [lit "    " ++ notice].

(** A transaction: its heading, its notes, its postings, and an empty line. *)
Inductive sheet (t : transaction) : list str -> Prop :=
| Sheet : forall d ls, ymd_text 45 (t_date t) d -> Forall2 posting_sheet (t_postings t) ls ->
    sheet t ((d ++ [32] ++ state_mark (t_state t) ++ [32] ++ t_payee t ++ (if is_nil (t_headernote t) then [] else lit "    " ++ remark (t_headernote t)))
             :: map (fun n => lit "    " ++ remark n) (t_notes t) ++ concat ls ++ [[]]).

Lemma fold_added : forall A (f : A -> str) l s, fold_left (fun rs n => rs ++ [newline] ++ f n) l s = s ++ concat (map (fun n => [10] ++ f n) l).
Proof.
  intros A f l. induction l as [|x l IH]; intro s; cbn [fold_left map concat]; [now rewrite app_nil_r|]. rewrite IH, <- !app_assoc. reflexivity.
Qed.
Lemma lines_shift : forall l, [10] ++ concat (lines l) = concat (map (fun x => [10] ++ x) l) ++ [10].
Proof.
  unfold lines. induction l as [|x l IH]; [reflexivity|]. cbn [map concat]. rewrite <- !app_assoc. cbn [app] in *. now rewrite <- IH.
Qed.

Lemma lines_first : forall h l, concat (lines (h :: l)) = h ++ concat (map (fun x => [10] ++ x) l) ++ [10].
Proof. intros h l. rewrite <- lines_shift. unfold lines. cbn [map concat]. now rewrite <- app_assoc. Qed.

Lemma posting_laid_out : forall p, in_int64 (quantity p) -> exists ls, posting_sheet p ls /\ [10] ++ lit "    " ++ posting_string p = concat (map (fun x => [10] ++ x) ls).
Proof.
  intros p R. unfold posting_string. destruct (po_amount p) as [[c q]|] eqn:A.
  - assert (R' : in_int64 q) by (unfold quantity in R; rewrite A in R; exact R).
    destruct (C05_display_close c q true R') as (q' & s & M & D & S & B).
    assert (N : nearly_money q s).
    { destruct (Z_le_gt_dec (Z.abs q) (100 * 2 ^ 46)) as [L|G].
      - destruct (C05_display_exact_partial c q true L) as (s' & M' & D'). rewrite D in D'. apply app_inv_head in D'. subst s'.
        exists q. split; [exact M'|]. split; [tauto|]. split; [|auto]. rewrite Z.sub_diag. cbn. lia.
      - exists q'. split; [exact M|]. split; [exact S|]. split; [exact B|]. lia. }
    eexists. split; [eapply SheetPriced; [exact A|exact N]|]. rewrite D, (fold_added _ (fun n => lit "      ; " ++ n)). cbn [map concat].
    rewrite map_map. rewrite <- !app_assoc. do 6 f_equal.
  - eexists. split; [now apply SheetUnpriced|]. cbn [map concat]. now rewrite app_nil_r.
Qed.

Lemma laid_out : forall t, real_date (t_date t) -> 0 <= d_year (t_date t) <= 9999 -> amounts_in_range (t_postings t) ->
  exists ls, sheet t ls /\ transaction_string t ++ [10] = concat (lines ls).
Proof.
  intros t R Y A. unfold amounts_in_range in A.
  assert (P : exists pl, Forall2 posting_sheet (t_postings t) pl /\
    concat (map (fun p => [10] ++ lit "    " ++ posting_string p) (t_postings t)) = concat (map (fun x => [10] ++ x) (concat pl))).
  { induction A as [|p ps H A (pl & F & Q)]; [exists []; split; [constructor|reflexivity]|].
    destruct (posting_laid_out p H) as (ls & S & Q'). exists (ls :: pl). split; [now constructor|].
    cbn [map concat]. rewrite map_app, concat_app, Q, Q'. reflexivity. }
  destruct P as (pl & F & Q). pose proof (format_ymd _ R Y) as D. eexists. split; [exact (Sheet t _ pl D F)|].
  unfold transaction_string. rewrite (fold_added _ (fun p => lit "    " ++ posting_string p)), (fold_added _ (fun n => lit "    ; " ++ n)).
  rewrite lines_first, !map_app, !concat_app, map_map, Q. cbn [map concat].
  rewrite !app_nil_r, <- !app_assoc. 
  destruct (t_headernote t) as [|c n]; cbn [is_nil]; rewrite <- ?app_assoc; reflexivity.
Qed.

(** Every selected transaction is printed so. *)
Theorem C100_sheets : forall E O fs, sane_clock E -> orders E -> sorts E -> filters_for E (o_args O) fs -> CmdSpec.readable E O ->
  exists sel ts sheets out, picks E O fs (txns 0 (fst (stream E O))) sel /\ Permutation ts (selected sel) /\ date_ordered ts /\
    Forall2 sheet ts sheets /\ print_cmd E O = Outcome out SOk /\ concat out = concat (lines (concat sheets)).
Proof.
  intros E O fs C Or So F R. destruct (proj1 (C42_print E O fs C Or So F) R) as (sel & ts & P & Pm & D & Q).
  assert (K : forall t, In t ts -> real_date (t_date t) /\ 0 <= d_year (t_date t) <= 9999 /\ amounts_in_range (t_postings t)).
  { intros t I. apply (Permutation_in _ Pm) in I. apply in_map_iff in I as ([u ps] & <- & I). apply (picks_in _ _ _ _ _ _ _ P) in I as (I & _).
    apply txns_in in I. pose proof (stream_dated E O) as Sd. pose proof (stream_balanced E O) as Sb. rewrite Forall_forall in Sd, Sb.
    specialize (Sd _ I). specialize (Sb _ I). cbn in Sd, Sb. unfold dated in Sd. tauto. }
  assert (X : exists sheets, Forall2 sheet ts sheets /\ concat (lines (map transaction_string ts)) = concat (lines (concat sheets))).
  { clear -K. induction ts as [|t ts IH]; [exists []; split; [constructor|reflexivity]|].
    destruct (laid_out t) as (ls & S & Q); [now apply K; left..|]. destruct IH as (sheets & F & Q'); [intros; apply K; now right|].
    exists (ls :: sheets). split; [now constructor|]. unfold lines in *. cbn [map concat]. rewrite map_app, concat_app, Q', Q. reflexivity. }
  destruct X as (sheets & F2 & Q2). exists sel, ts, sheets, (lines (map transaction_string ts)). auto 7.
Qed.

(** When the amounts of the others sum to zero, a posting without amount is not
    printed. *)
Definition text_unpriced : str := lit "2021-03-01 A" ++ [10] ++ lit "    x    $1" ++ [10] ++ lit "    y    $-1" ++ [10] ++ lit "    z" ++ [10] ++ lit "    ; why" ++ [10].
Theorem C100_refuted : exists E O t p out, sane_clock E /\ orders E /\ sorts E /\ filters_for E (o_args O) [] /\ CmdSpec.readable E O /\
  In (ETxn t (lit "j")) (fst (stream E O)) /\ In p (t_postings t) /\ po_account p = lit "z" /\ po_comments p = [lit "why"] /\
  print_cmd E O = Outcome out SOk /\
  concat out = concat (lines [lit "2021-03-01   A"; lit "    x    $1.00"; lit "    y    $-1.00"; lit "    " ++ notice; []]).
Proof.
  set (E := env0 [(lit "j", text_unpriced)]). set (O := opts3 [] [] false []).
  exists E, O, (nth_txn 0 E O), (nth 2 (t_postings (nth_txn 0 E O)) newPosting), (r_out (print_cmd E O)).
  split; [apply env0_clock|]. split; [apply env0_orders|]. split; [apply env0_sorts|]. split; [apply makeFilters_spec; reflexivity|].
  split; [apply readable_noflags; vm_compute; reflexivity|].
  split; [apply nth_error_In with (n := 0%nat); vm_compute; reflexivity|].
  split; [apply nth_error_In with (n := 2%nat); vm_compute; reflexivity|]. repeat split; vm_compute; reflexivity.
Qed.

Definition text_sheet : str :=
  lit "2021/03/01 * A  ; note" ++ [10] ++ lit "  ; more" ++ [10] ++ lit "    x    $1" ++ [10] ++ lit "    ; why" ++ [10] ++ lit "    y" ++ [10].
Example C100_example : let E := env0 [(lit "j", text_sheet)] in let O := opts3 [] [] false [] in
  sane_clock E /\ orders E /\ sorts E /\ filters_for E (o_args O) [] /\ CmdSpec.readable E O /\
  concat (r_out (print_cmd E O)) = concat (lines [lit "2021-03-01 * A    ; note"; lit "    ; more"; lit "    x    $1.00"; lit "      ; why"; lit "    y    $-1.00"; []]).
Proof.
  intros E O. split; [apply env0_clock|]. split; [apply env0_orders|]. split; [apply env0_sorts|]. split; [apply makeFilters_spec; reflexivity|].
  split; [apply readable_noflags; vm_compute; reflexivity|]. vm_compute. reflexivity.
Qed.
