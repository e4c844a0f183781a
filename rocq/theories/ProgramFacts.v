(** * Programs that read alike behave alike *)
From Verif Require Import Base BaseFacts Utf8 Unicode GoTime Strconv Journal Lexer Parser Budget Spec Cmd CmdSpec Unused Main.

(** The same machine with other files, or deeper includes. *)
Definition with_files (E : env) (fs : str -> option file) (depth : nat) : env :=
  Env (e_unicode E) fs depth (e_ledger_file E) (e_re_ok E) (e_re_match E) (e_year E) (e_tomorrow E) (e_local E)
    (e_order E) (e_tree_order E) (e_sort E) (e_now E).

Definition reads_same (E E' : env) (O : opts) : Prop :=
  forall D th ph (s : D), parse_cmd E O th ph s = parse_cmd E' O th ph s.

Lemma same_commands : forall E fs d O, reads_same E (with_files E fs d) O -> forall c, run_command E c O = run_command (with_files E fs d) c O.
Proof.
  intros E fs d O R c. destruct c; unfold run_command.
  - unfold accounts_cmd, with_filters. change (makeFilters (with_files E fs d)) with (makeFilters E). destruct (makeFilters E (o_args O)) as [l| |]; try reflexivity.
    unfold accounts_run. now rewrite R.
  - unfold balance_cmd, with_filters. change (makeFilters (with_files E fs d)) with (makeFilters E). destruct (makeFilters E (o_args O)) as [l| |]; try reflexivity.
    unfold balance_run. now rewrite R.
  - unfold budget_cmd, with_filters. change (makeFilters (with_files E fs d)) with (makeFilters E). destruct (makeFilters E (o_args O)) as [l| |]; try reflexivity.
    unfold budget_run. now rewrite R.
  - unfold payees_cmd, with_filters. change (makeFilters (with_files E fs d)) with (makeFilters E). destruct (makeFilters E (o_args O)) as [l| |]; try reflexivity.
    unfold payees_run. now rewrite R.
  - unfold print_cmd, with_filters. change (makeFilters (with_files E fs d)) with (makeFilters E). destruct (makeFilters E (o_args O)) as [l| |]; try reflexivity.
    unfold print_run. now rewrite R.
  - unfold stats_cmd, with_filters. change (makeFilters (with_files E fs d)) with (makeFilters E). destruct (makeFilters E (o_args O)) as [l| |]; try reflexivity.
    unfold stats_run. now rewrite R.
  - reflexivity.
Qed.

Lemma same_program : forall E fs d L help_text library, (forall O, reads_same E (with_files E fs d) O) -> forall argv,
  gledger E L help_text library argv = gledger (with_files E fs d) L help_text library argv.
Proof.
  intros E fs d L help_text library R argv. unfold gledger. destruct (strip_flags argv) as [|name rest]; [reflexivity|].
  destruct (find_next name) as [[c|]|]; try reflexivity. unfold execute. destruct (parse_args (cmd_flags c) (minus_first name argv) fs_init) as [s|]; [|reflexivity].
  destruct (fs_help s); [reflexivity|]. now rewrite (same_commands E fs d _ (R (fs_opts s))).
Qed.
