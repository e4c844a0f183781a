(** * Reports that are cut short *)
From Verif Require Import Base BaseFacts Utf8 Utf8Facts Unicode GoTime Strconv Display Journal Lexer Parser ParserFacts
  Account Humanize Reporting Budget Cmd Main Spec TextSpec JournalText TreeSpec TreeFacts ReportSpec CalendarFacts CmdSpec StreamFacts CmdFacts BalanceFacts
  MainSpec MainFacts JournalFacts AmountFacts DateFacts FlatSpec BookText WholeFacts FilesText FilesFacts BudgetSpec BudgetRun
  MistakeText CrashText PropsText PropsParser PropsCmd PropsBalance PropsStats PropsInput PropsMain PropsBudget PropsWhole PropsBook PropsFiles.

Definition all_priced (es : list FlatSpec.entry) : Prop := Forall (fun t => Forall priced (t_postings t)) (recorded es).
Lemma means_priced : forall ws es, Forall2 means ws es -> all_priced es.
Proof.
  unfold all_priced. induction 1 as [|w e l l' S F IH]; [constructor|]. destruct S as [t t' S|a pt S]; [|exact IH].
  cbn [recorded flat_map app]. fold (recorded l'). constructor; [|exact IH]. now apply settled_priced with t.
Qed.
Lemma priced_app : forall a b, all_priced a -> all_priced b -> all_priced (a ++ b).
Proof. intros a b A B. unfold all_priced, recorded in *. rewrite flat_map_app. apply Forall_app. now split. Qed.
Lemma faulty_priced : forall U L fs n path ls es what, faulty U L fs n path ls es what -> all_priced es.
Proof. induction 1; try (eapply means_priced; eassumption). apply priced_app; [eapply means_priced; eassumption|assumption]. Qed.

Lemma doomed_priced : forall U fs n path bytes es x, doomed U fs n path bytes es x -> all_priced es.
Proof. induction 1; try (eapply means_priced; eassumption). apply priced_app; [eapply means_priced; eassumption|assumption]. Qed.

Section Stop.
Variables (E : env) (O : opts) (fs : list filter_) (es : list FlatSpec.entry).
Hypotheses (C : sane_clock E) (Or : orders E).
(** The entries delivered before reading ends, however it ends. *)
Hypotheses (Read : map erase (fst (stream E O)) = es) (Priced : Forall (fun t => Forall priced (t_postings t)) (recorded es))
  (Flags : forall k, (k < length (recorded es))%nat -> good_flags E O k).
Notation us := (txns 0 (fst (stream E O))).

Lemma stop_txns : map u_txn us = recorded es.
Proof. now rewrite txns_recorded, Read. Qed.
Lemma stop_flags : flags_ok E O us.
Proof.
  apply Forall_forall. intros u I. apply In_nth_error in I as [k N]. rewrite (txns_numbered _ _ _ _ N). cbn [Nat.add]. apply Flags.
  rewrite <- stop_txns, map_length. apply nth_error_Some. rewrite N. discriminate.
Qed.
Lemma stop_picked : exists sel, picks E O fs us sel.
Proof.
  pose proof stop_flags as R. induction R as [|u l G R IH]; [exists []; constructor|]. destruct IH as [sel P].
  pose proof (within_spec E O (u_n u) (u_txn u) C) as W. destruct (withinDateRange E O (u_n u) (u_txn u)) as [[]| |]; [| |contradiction|contradiction].
  - destruct (hit E fs (u_txn u)) eqn:H.
    + exists ((u, hits E fs (u_txn u)) :: sel). apply PickIt; auto; [apply W|]. intro X. unfold hits. destruct fs as [|f l']; [reflexivity|].
      destruct X as [X| ->]; [discriminate|reflexivity].
    + exists sel. apply PickNot; auto.
  - exists sel. apply PickNot; auto. left. apply W.
Qed.
Lemma stop_priced : forall sel, picks E O fs us sel -> Forall priced (taken sel).
Proof.
  intros sel P. apply Forall_forall. intros p I. unfold taken in I. apply in_flat_map in I as ([u ps] & I & J). cbn [snd] in J.
  apply (picks_in _ _ _ _ _ _ _ P) in I as (I & _ & _ & Pm). apply (Permutation_in _ Pm), hits_in in J.
  pose proof Priced as Q. rewrite <- stop_txns in Q. rewrite Forall_forall in Q. specialize (Q _ (in_map u_txn _ _ I)).
  rewrite Forall_forall in Q. now apply Q.
Qed.

Lemma balance_cut : exists sel s, chosen E O fs 0 (recorded es) (map unnumbered sel) /\
  balance_run E O fs = (s, snd (stream E O)) /\ h_out s = complaints [] (taken sel).
Proof.
  pose proof (balance_deliver E O fs C Or (fst (stream E O)) (HS 0 [] newJournal) [] (stream_months E O) built_new) as K.
  destruct (deliver_all _ _ _ _) as [s r] eqn:R. cbn [h_n h_out app] in K. destruct K as [(-> & _ & sel & P & _ & _ & Q)|(_ & N)].
  - exists sel, s. split; [apply picks_chosen in P; now rewrite Read in P|]. split; [now apply run_sure|exact Q].
  - exfalso. apply N. split; [exact stop_flags|]. destruct stop_picked as [sel P]. exists sel. split; [exact P|now apply stop_priced].
Qed.

Lemma stats_cut : exists s, stats_run E O fs = (s, snd (stream E O)) /\ h_out s = [].
Proof.
  destruct (stats_run E O fs) as [s r] eqn:R. destruct (stats_run_spec E O fs s r C Or R) as (H & _).
  exists s. split; [|exact H]. f_equal.
  destruct stop_picked as [sel P].
  destruct (picked_total E O C Or _ fs stats_handler None (fun _ => True) no_income_without_amount) with (evs := fst (stream E O)) (s := HS 0 [] newStats) (sel := sel) as [s' [R' _]]; auto.
  - intros ps ps' Pm N. eapply Permutation_Forall; eassumption.
  - intros s1 n t ps p _ N. destruct (stats_step_total (h_data s1) t ps p N) as [d Q']. exists (HS (h_n s1) (h_out s1) d).
    unfold stats_handler. rewrite Q'. auto.
  - intros s1 pt p _. exists s1. auto.
  - exact stop_flags.
  - pose proof (stop_priced sel P) as F. unfold taken in F. clear - F. induction sel as [|x sel IH]; [constructor|].
    cbn [flat_map] in F. apply Forall_app in F as [F1 F2]. constructor; [|now apply IH].
    eapply Forall_impl; [|exact F1]. intros p H X. contradiction.
  - apply run_sure in R'. unfold stats_run in R. rewrite R' in R. congruence.
Qed.

Lemma budget_cut :
  ((exists log, happened E O fs 0 es log /\ Forall proper log) ->
   exists log s, happened E O fs 0 es log /\ budget_run E O fs = (s, snd (stream E O)) /\ h_out s = objected [] log) /\
  ((forall log, happened E O fs 0 es log -> ~ Forall proper log) -> snd (budget_run E O fs) = SPanic).
Proof.
  assert (Hh : forall log, history E O fs 0 (fst (stream E O)) log <-> happened E O fs 0 es log).
  { intro log. rewrite history_happened. now rewrite Read. }
  pose proof (stream_dated E O) as D. split.
  - intros (log & H & P). apply Hh in H.
    destruct (budget_total E O C Or fs 0 _ log H P D stop_flags (HS 0 [] newBudget) [] eq_refl kept_new) as [s X].
    pose proof X as Y. apply (budget_fold E O C Or fs _ [] (HS 0 [] newBudget) s D kept_new) in Y. cbn [h_n h_out h_data app] in Y.
    destruct Y as (_ & log' & H' & _ & _ & Q). exists log', s. split; [now apply Hh|]. split; [now apply run_sure|exact Q].
  - intro N. pose proof (parse_cmd_fold E O _ (Some (checked E O fs budget_handler)) (Some budget_ph) (HS 0 [] newBudget)) as F.
    pose proof (budget_delivers E O C Or fs stop_flags) as K.
    destruct (deliver_all (Some (checked E O fs budget_handler)) (Some budget_ph) (HS 0 [] newBudget) (fst (stream E O))) as [s r] eqn:R.
    cbn [snd] in K. destruct K as [->| ->].
    + exfalso. apply (budget_fold E O C Or fs _ [] (HS 0 [] newBudget) s D kept_new) in R. destruct R as (_ & log & H & P & _). apply Hh in H. now apply (N log).
    + destruct (stream E O) as [evs st]. cbn [fst] in R. rewrite R in F. destruct F as [_ F]. unfold budget_run.
      destruct (snd (parse_cmd E O _ _ _)); cbn in F; congruence.
Qed.
End Stop.
