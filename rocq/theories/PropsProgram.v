(** * What does not matter in a journal's text, for the whole program

    C11 to C14 and C53 say of the reader, with any handlers, which changes of the
    files do not matter.  Here the same is said of every run of the program, from
    the command line to what is printed and the exit status. *)
From Verif Require Import Base BaseFacts Utf8 Unicode GoTime Strconv Journal Lexer Parser FlatSpec Spec LineFacts Sample PropsParser PropsLines PanicSpec PanicFacts PropsIgnored Cmd CmdSpec PropsCmd Unused Main PropsMain ProgramFacts PropsLayout.

(** Two runs that differ at most in the line numbers of the error reported. *)
Definition but_for_line_numbers (L : err -> str) (r r' : result) : Prop :=
  r = r' \/ exists out e e', forget_lines e = forget_lines e' /\
    r = Result (out ++ err_text L e ++ [10]) (Some 0) /\ r' = Result (out ++ err_text L e' ++ [10]) (Some 0).

Definition reads_alike (E E' : env) (O : opts) : Prop :=
  forall D th ph (s : D), fst (parse_cmd E O th ph s) = fst (parse_cmd E' O th ph s) /\
    up_to_lines (snd (parse_cmd E O th ph s)) (snd (parse_cmd E' O th ph s)).

Definition outcomes_alike (r r' : outcome) : Prop := r_out r = r_out r' /\ up_to_lines (r_status r) (r_status r').

Lemma same_alike : forall r, outcomes_alike r r.
Proof. intro r. split; [reflexivity|apply up_to_lines_refl]. Qed.

Lemma finish_alike : forall D (r r' : hstate D * status) k, fst r = fst r' -> up_to_lines (snd r) (snd r') ->
  outcomes_alike (finish r k) (finish r' k).
Proof.
  intros D [s r] [s' r'] k Q T. cbn [fst snd] in *. subst s'. unfold finish.
  destruct r, r'; cbn in T; try discriminate; try apply same_alike. split; [reflexivity|exact T].
Qed.

Lemma commands_alike : forall E fs d O, reads_alike E (with_files E fs d) O -> forall c,
  outcomes_alike (run_command E c O) (run_command (with_files E fs d) c O).
Proof.
  intros E fs d O R c. destruct c; unfold run_command; [| | | | | |apply same_alike].
  - unfold accounts_cmd, with_filters. change (makeFilters (with_files E fs d)) with (makeFilters E). destruct (makeFilters E (o_args O)) as [l| |]; try apply same_alike.
    unfold accounts_run. apply finish_alike; apply R.
  - unfold balance_cmd, with_filters. change (makeFilters (with_files E fs d)) with (makeFilters E). destruct (makeFilters E (o_args O)) as [l| |]; try apply same_alike.
    unfold balance_run. apply finish_alike; apply R.
  - unfold budget_cmd, with_filters. change (makeFilters (with_files E fs d)) with (makeFilters E). destruct (makeFilters E (o_args O)) as [l| |]; try apply same_alike.
    unfold budget_run. apply finish_alike; apply R.
  - unfold payees_cmd, with_filters. change (makeFilters (with_files E fs d)) with (makeFilters E). destruct (makeFilters E (o_args O)) as [l| |]; try apply same_alike.
    unfold payees_run. apply finish_alike; apply R.
  - unfold print_cmd, with_filters. change (makeFilters (with_files E fs d)) with (makeFilters E). destruct (makeFilters E (o_args O)) as [l| |]; try apply same_alike.
    unfold print_run. apply finish_alike; apply R.
  - unfold stats_cmd, with_filters. change (makeFilters (with_files E fs d)) with (makeFilters E). destruct (makeFilters E (o_args O)) as [l| |]; try apply same_alike.
    unfold stats_run. apply finish_alike; apply R.
Qed.

Lemma results_alike : forall L r r', outcomes_alike r r' -> but_for_line_numbers L (result_of L r) (result_of L r').
Proof.
  intros L [o s] [o' s'] [Q T]. cbn in Q, T. subst o'. unfold result_of. cbn [r_out r_status].
  destruct s as [|e| | |], s' as [|e'| | |]; cbn in T; try discriminate; try (now left).
  destruct e, e'; cbn in T; try discriminate T; try (now left);
    right; eexists _, _, _; (split; [|split; reflexivity]; exact T).
Qed.

Lemma programs_alike : forall E fs d L help_text library, (forall O, reads_alike E (with_files E fs d) O) -> forall argv,
  but_for_line_numbers L (gledger E L help_text library argv) (gledger (with_files E fs d) L help_text library argv).
Proof.
  intros E fs d L help_text library R argv. unfold gledger. destruct (strip_flags argv) as [|name rest]; [now left|].
  destruct (find_next name) as [[c|]|]; try now left. unfold execute. destruct (parse_args (cmd_flags c) (minus_first name argv) fs_init) as [s|]; [|now left].
  destruct (fs_help s); [now left|]. apply results_alike, commands_alike, R.
Qed.

(** What is shown of the reader is so of the program. *)
Lemma reader_alike : forall E fs' (R : str -> str -> Prop),
  (forall S th ph depth hint f f' (s : S), f_bad f = f_bad f' -> (f_bytes f = f_bytes f' \/ R (f_bytes f) (f_bytes f')) ->
     fst (parse (e_unicode E) (e_fs E) th ph depth hint f s) = fst (parse (e_unicode E) fs' th ph depth hint f' s) /\
     up_to_lines (snd (parse (e_unicode E) (e_fs E) th ph depth hint f s)) (snd (parse (e_unicode E) fs' th ph depth hint f' s))) ->
  files_related R (e_fs E) fs' -> forall O, reads_alike E (with_files E fs' (e_depth E)) O.
Proof.
  intros E fs' R H F O D th ph s. unfold parse_cmd. cbn [with_files e_unicode e_fs e_depth e_ledger_file].
  destruct (match o_file O with [] => e_ledger_file E | f => Some f end) as [p|]; [|split; [reflexivity|apply up_to_lines_refl]].
  pose proof (F p) as G. destruct (e_fs E p) as [f|], (fs' p) as [f'|]; try contradiction; [|split; [reflexivity|apply up_to_lines_refl]].
  destruct G as [B G]. now apply H.
Qed.

Section Program.
Variable E : env.
Variable L : err -> str.
Variable help_text : list str -> str.
Variable library : list str -> result.
Variable fs' : str -> option file.
Notation run := (gledger E L help_text library).
Notation run' := (gledger (with_files E fs' (e_depth E)) L help_text library).

Theorem C11_program : files_related (line_inserted comment_line) (e_fs E) fs' -> forall argv,
  but_for_line_numbers L (run argv) (run' argv).
Proof.
  intros F. apply programs_alike. apply (reader_alike E fs' (line_inserted comment_line)); [|exact F].
  intros S th ph depth hint f f' s B G. now apply C11_comment_lines_are_inert.
Qed.

Theorem C12_program : files_related (line_inserted blank_before_header) (e_fs E) fs' -> forall argv,
  but_for_line_numbers L (run argv) (run' argv).
Proof.
  intros F. apply programs_alike. apply (reader_alike E fs' (line_inserted blank_before_header)); [|exact F].
  intros S th ph depth hint f f' s B G. now apply C12_blank_line_before_header_is_inert.
Qed.

Theorem C53_program : files_related (line_inserted (fun c _ => one_line c /\ skipped (e_unicode E) (decode c))) (e_fs E) fs' -> forall argv,
  but_for_line_numbers L (run argv) (run' argv).
Proof.
  intros F. apply programs_alike. eapply (reader_alike E fs'); [|exact F].
  intros S th ph depth hint f f' s B G. now apply C53_ignored_inert.
Qed.

Lemma same_lines_program : forall R : str -> str -> Prop, (forall a b, R a b -> file_lines a = file_lines b) ->
  files_related R (e_fs E) fs' -> forall argv, run argv = run' argv.
Proof.
  intros R H F. apply (program_alike E L help_text library fs' R); [|exact F].
  intros a b G. rewrite (H a b G). induction (file_lines b); constructor; [apply alike_refl|assumption].
Qed.

Theorem C13_program : files_related (fun a b => crlf_safe a /\ b = to_crlf a) (e_fs E) fs' -> forall argv,
  run argv = run' argv.
Proof.
  apply same_lines_program. intros a b [S ->]. symmetry. now apply crlf_lines.
Qed.

Theorem C14_program : files_related (fun a b => a <> [] /\ last a 0 <> LF /\ last a 0 <> CR /\ b = a ++ [LF]) (e_fs E) fs' -> forall argv,
  run argv = run' argv.
Proof.
  apply same_lines_program. intros a b (N & A & B & ->). symmetry. now apply final_newline_lines.
Qed.
End Program.

(** Journals of one file: related when their texts are. *)
Lemma one_file_related : forall (R : str -> str -> Prop) name a b, R a b -> files_related R (disk [(name, a)]) (disk [(name, b)]).
Proof.
  intros R name a b H p. unfold disk. cbn [assoc]. destruct (str_eqb p name); [|exact I]. split; [reflexivity|]. right. exact H.
Qed.

(** A comment line put before a faulty line: print reports the same, one line
    further down; accounts of a good journal does exactly the same. *)
Definition faulty (comment : str) : str := lit "2020-01-02 Shop
" ++ comment ++ lit "  Food    $1
oops
".
Example C11_program_example :
  let c := lit "; so far so good" in
  files_related (line_inserted comment_line) (disk [(lit "j", faulty [])]) (disk [(lit "j", faulty (c ++ [LF]))]) /\
  let said text := p_out (gledger (env0 [(lit "j", text)]) L0 help0 lib0 [lit "print"; lit "-f"; lit "j"]) in
  said (faulty []) = lit "error at j:3
" ++ skipn 13 (said (faulty [])) /\
  said (faulty (c ++ [LF])) = lit "error at j:4
" ++ skipn 13 (said (faulty [])).
Proof.
  split; [|vm_compute; split; reflexivity]. apply one_file_related.
  apply (Inserted comment_line (lit "2020-01-02 Shop
") (lit "; so far so good") (lit "  Food    $1
oops
")).
  - right. exists (lit "2020-01-02 Shop"). reflexivity.
  - vm_compute. intuition discriminate.
  - reflexivity.
  - exists 59. eexists. split; [reflexivity|]. now left.
Qed.

Example C13_program_example :
  files_related (fun a b => crlf_safe a /\ b = to_crlf a) (disk [(lit "j", sample1)]) (disk [(lit "j", to_crlf sample1)]).
Proof. apply one_file_related. split; [apply C13_example|reflexivity]. Qed.

Example C14_program_example :
  let b := lit "2020-01-02 Shop
  Expenses:Food    $10
  Assets:Cash    $-10" in
  files_related (fun a b => a <> [] /\ last a 0 <> LF /\ last a 0 <> CR /\ b = a ++ [LF]) (disk [(lit "j", b)]) (disk [(lit "j", b ++ [LF])]) /\
  gledger (env0 [(lit "j", b)]) L0 help0 lib0 [lit "accounts"; lit "-f"; lit "j"] = Result (lit "Assets:Cash
Expenses:Food
") (Some 0).
Proof.
  split; [|vm_compute; reflexivity]. apply one_file_related. repeat split; vm_compute; discriminate.
Qed.

(** C12 and C53 likewise: a blank line before a header; a line in brackets. *)
Example C12_program_example :
  let a := lit "2020-01-02 Shop
  Food    $1
  Cash
" in
  files_related (line_inserted blank_before_header) (disk [(lit "j", a ++ a)]) (disk [(lit "j", a ++ [LF] ++ a)]).
Proof.
  intro a. apply one_file_related. apply (Inserted blank_before_header a [] a).
  - right. exists (removelast a). reflexivity.
  - intros [].
  - reflexivity.
  - split; [reflexivity|]. exists (lit "2020-01-02 Shop"). split; [right; exists (lit "  Food    $1
  Cash
"); reflexivity|]. split; [vm_compute; intuition discriminate|]. split; [reflexivity|].
    left. exists 50. eexists. split; [reflexivity|]. split; discriminate.
Qed.
Example C53_program_example :
  let a := lit "2020-01-02 Shop
  Food    $1
  Cash
" in
  let c := lit "  (Savings)    $5" in
  files_related (line_inserted (fun c _ => one_line c /\ skipped U0 (decode c))) (disk [(lit "j", a)]) (disk [(lit "j", a ++ c ++ [LF])]).
Proof.
  intros a c. apply one_file_related.
  replace a with (a ++ []) at 1 by apply app_nil_r.
  apply (Inserted _ a c []).
  - right. exists (removelast a). reflexivity.
  - vm_compute. intuition discriminate.
  - reflexivity.
  - split; [repeat split; vm_compute; intuition discriminate|]. right. exists [32; 32], [], (lit "(Savings)    $5").
    split; [reflexivity|]. split; [now right|]. split; [constructor|]. right. exists 40. eexists. split; [reflexivity|].
    split; [reflexivity|]. split; [|reflexivity]. intros [H|H]; discriminate H.
Qed.
