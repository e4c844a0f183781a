(** * C89: the flags of balance change only its rows *)
From Verif Require Import Base BaseFacts Utf8 Unicode GoTime Strconv Display Journal Lexer Parser Account Reporting Budget Spec Cmd CmdSpec Unused Main MainSpec Sample PropsMain.

(** The same journal, dates and arguments. *)
Definition same_question (O O' : opts) : Prop :=
  o_file O = o_file O' /\ o_begin O = o_begin O' /\ o_end O = o_end O' /\ o_current O = o_current O' /\ o_args O = o_args O'.

Definition line_of_dashes : str := lit "--------------------" ++ [10].

(** Whatever the flags, balance ends alike, complains alike, and prints the same
    total below its rows. *)
Theorem C89_shape : forall E O O', same_question O O' ->
  r_status (balance_cmd E O) = r_status (balance_cmd E O') /\
  ((r_status (balance_cmd E O) <> SOk /\ r_out (balance_cmd E O) = r_out (balance_cmd E O')) \/
   (r_status (balance_cmd E O) = SOk /\ exists complaints rows rows' total,
     r_out (balance_cmd E O) = complaints ++ [rows; line_of_dashes; total] /\
     r_out (balance_cmd E O') = complaints ++ [rows'; line_of_dashes; total])).
Proof.
  intros E [f b e c a fl co z] [f' b' e' c' a' fl' co' z'] (H1 & H2 & H3 & H4 & H5). cbn in H1, H2, H3, H4, H5. subst f' b' e' c' a'.
  set (O := Opts f b e c a fl co z). set (O' := Opts f b e c a fl' co' z'). unfold balance_cmd, with_filters. change (o_args O') with (o_args O).
  destruct (makeFilters E (o_args O)) as [fs|er|]; [|split; [reflexivity|left; split; [discriminate|reflexivity]]..].
  change (balance_run E O' fs) with (balance_run E O fs). destruct (balance_run E O fs) as [s st]. unfold finish. destruct st; cbn [r_status r_out]; split; try reflexivity;
    try (left; split; [discriminate|reflexivity]).
  right. split; [reflexivity|]. unfold report. 
  assert (X : forall O, acc_data (prepareBalance E O (j_root (h_data s))) = acc_data (j_root (h_data s))).
  { intro Q. unfold prepareBalance. destruct (o_show_zero Q); [reflexivity|]. unfold removeEmptyChildren.
    set (r := j_root (h_data s)). generalize (findAccounts (e_tree_order E) (fun x => am_quantity (a_amount (acc_data x)) =? 0) [] r). intro ps.
    assert (K : forall t, acc_data (fold_left (fun t p => if str_eqb (last_key r p) RootID then t else unlink_at p t) ps t) = acc_data t).
    { induction ps as [|p ps IH]; intro t; cbn [fold_left]; [reflexivity|]. rewrite IH. destruct (str_eqb _ _); [reflexivity|].
      destruct p as [|k [|k' p]]; [reflexivity| |]; destruct t as [d ch]; cbn [unlink_at]; [reflexivity|]. destruct (get k ch); reflexivity. }
    apply K. }
  rewrite !X. eexists _, _, _, _. split; reflexivity.
Qed.

Definition shapes : list (str * str) := [(lit "j", lit
"2020-01-02 Shop
  Assets:Cash    $-2
  Food:Fruit    $2
2020-01-03 Gift
  Assets:Cash    $2
  Income
")].
Example C89_example :
  same_question (Opts (lit "j") [] [] false [] false false true) (Opts (lit "j") [] [] false [] true false false) /\
  r_status (balance_cmd (env0 shapes) (Opts (lit "j") [] [] false [] false false true)) = SOk /\
  r_out (balance_cmd (env0 shapes) (Opts (lit "j") [] [] false [] false false true)) <> r_out (balance_cmd (env0 shapes) (Opts (lit "j") [] [] false [] true false false)).
Proof. split; [repeat split|]. split; [vm_compute; reflexivity|vm_compute; discriminate]. Qed.
