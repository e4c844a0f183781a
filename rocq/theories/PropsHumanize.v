(** * How long ago the first and the last transaction were: C98 *)
From Verif Require Import Base BaseFacts Utf8 Unicode GoTime Strconv Display Journal Lexer Parser Account Reporting Budget Humanize Cmd
  Spec TextSpec CmdSpec CmdFacts Sample PropsCmd PropsStats.

(** Names of units, their lengths in nanoseconds, and the length of the next. *)
Definition seconds (n : Z) : Z := n * 1000000000.
Inductive unit_of_time : str -> Z -> Z -> Prop :=
| USecond : unit_of_time (lit "second") (seconds 1) (seconds 60)
| UMinute : unit_of_time (lit "minute") (seconds 60) (seconds 3600)
| UHour : unit_of_time (lit "hour") (seconds 3600) (seconds 86400)
| UDay : unit_of_time (lit "day") (seconds 86400) (seconds (7 * 86400))
| UWeek : unit_of_time (lit "week") (seconds (7 * 86400)) (seconds (30 * 86400))
| UMonth : unit_of_time (lit "month") (seconds (30 * 86400)) (seconds (360 * 86400)).
Definition years (n : Z) : Z := n * seconds (360 * 86400).

(** The text for a time elapsed, [label] being "ago" or "from now". *)
Inductive told (e : Z) (label : str) : str -> Prop :=
| JustNow : e < seconds 1 -> told e label (lit "now")
| One : forall name u v, unit_of_time name u v -> u <= e < 2 * u -> told e label (lit "1 " ++ name ++ [32] ++ label)
| Several : forall name u v k ks, unit_of_time name u v -> 2 * u <= e < v -> k * u <= e < (k + 1) * u -> canonical ks k ->
    told e label (ks ++ [32] ++ name ++ lit "s " ++ label)
| OneYear : years 1 <= e -> 2 * e < years 3 -> told e label (lit "1 year " ++ label)
| NearlyTwo : years 3 <= 2 * e -> e < years 2 -> told e label (lit "2 years " ++ label)
| Years : forall k ks, years 2 <= e < years 37 -> years k <= e < years (k + 1) -> canonical ks k -> told e label (ks ++ lit " years " ++ label)
| Long : years 37 <= e -> told e label (lit "a long while " ++ label).

Lemma whole : forall e u, 0 < u -> 0 <= e -> Z.quot e u * u <= e < (Z.quot e u + 1) * u.
Proof. intros e u U H. rewrite Z.quot_div_nonneg by lia. pose proof (Z.div_mod e u). pose proof (Z.mod_pos_bound e u). lia. Qed.

Lemma several : forall e d label name u v f, unit_of_time name u v -> 0 < u -> 0 <= d -> e = d -> 2 * u <= e < v ->
  f = itoa (Z.quot d u) ++ [32] ++ name ++ lit "s " ++ label -> told e label f.
Proof. intros e d label name u v f U P H -> B ->. eapply Several; [exact U|exact B|apply whole; lia|]. apply canonical_z. apply Z.quot_pos; lia. Qed.

Theorem C98_told : forall now then_, told (Z.abs (now - then_)) (if now <? then_ then lit "from now" else lit "ago") (humanize now then_).
Proof.
  intros now then_. unfold humanize, relTime.
  set (lbl := if now <? then_ then lit "from now" else lit "ago").
  assert (X : exists d, (if now <? then_ then (lit "from now", sub_times then_ now) else (lit "ago", sub_times now then_)) = (lbl, d) /\ 0 <= d /\
    d = Z.min (Z.abs (now - then_)) (two63 - 1)).
  { assert (two63 = 9223372036854775808) by reflexivity.
    subst lbl. unfold sub_times. destruct (Z.ltb_spec now then_); eexists; (split; [reflexivity|]); cbv zeta;
      repeat match goal with |- context[?a <? ?b] => destruct (Z.ltb_spec a b) end; lia. }
  destruct X as (d & -> & P & D). clearbody lbl. set (e := Z.abs (now - then_)) in *. clearbody e.
  assert (T : two63 = 9223372036854775808) by reflexivity. rewrite T in D. clear now then_.
  assert (E : d < LongTime -> e = d) by (unfold LongTime, Year, Month, Day, Hour, Minute, Second, ns; lia).
  assert (Ey : years 37 = LongTime) by reflexivity.
  cbn [search defaultMagnitudes m_d]. rewrite T.
  unfold LongTime, Year, Month, Week, Day, Hour, Minute, Second, ns in *. unfold years, seconds in *.
  Ltac next := match goal with |- context[if ?a <? ?b then _ else _] => destruct (Z.ltb_spec a b) end; cbn [m_div m_format].
  Ltac single E U := rewrite E by lia; eapply eq_rect; [eapply One; [exact U|unfold seconds; lia]|cbn -[itoa Z.quot]; now rewrite app_nil_r].
  Ltac plural E U := eapply several; [exact U|reflexivity|eassumption|apply E; lia|unfold seconds; lia|cbn -[itoa Z.quot]; now rewrite app_nil_r].
  next; [eapply eq_rect; [apply JustNow; unfold seconds; lia|reflexivity]|].
  next; [single E USecond|]. next; [plural E USecond|].
  next; [single E UMinute|]. next; [plural E UMinute|].
  next; [single E UHour|]. next; [plural E UHour|].
  next; [single E UDay|]. next; [plural E UDay|].
  next; [single E UWeek|]. next; [plural E UWeek|].
  next; [single E UMonth|]. next; [plural E UMonth|].
  next; [eapply eq_rect; [apply OneYear; unfold years, seconds; lia|cbn; now rewrite app_nil_r]|].
  next; [eapply eq_rect; [apply NearlyTwo; unfold years, seconds; lia|cbn; now rewrite app_nil_r]|].
  next.
  - eapply eq_rect; [eapply Years with (k := Z.quot d (360 * seconds 86400)) (ks := itoa (Z.quot d (360 * seconds 86400)));
      [unfold years, seconds; lia| |apply canonical_z; apply Z.quot_pos; [lia|reflexivity]]|cbn -[itoa Z.quot]; now rewrite app_nil_r].
    rewrite E by lia. pose proof (whole d (360 * seconds 86400) eq_refl P). unfold years, seconds in *. lia.
  - next; (eapply eq_rect; [apply Long; unfold years, seconds; lia|cbn; now rewrite app_nil_r]).
Qed.

(** Both lines of stats, each with its own reading of the clock. *)
Theorem C98_stats : forall E O fs out, sane_clock E -> orders E -> filters_for E (o_args O) fs -> stats_cmd E O = Outcome out SOk ->
  exists sel, picks E O fs (txns 0 (fst (stream E O))) sel /\
  (sel <> [] -> Forall (fun t => t_date t <> Date 1 1 1) (selected sel) ->
   exists fd ld how1 how2, earliest sel fd /\ latest sel ld /\
     In (lit "First transaction:" ++ tab ++ format_date fd ++ lit " (" ++ how1 ++ lit ")" ++ [10]) out /\
     In (lit "Last transaction:" ++ tab ++ format_date ld ++ lit " (" ++ how2 ++ lit ")" ++ [10]) out /\
     told (Z.abs (e_now E 0 - seconds (instant fd))) (if e_now E 0 <? seconds (instant fd) then lit "from now" else lit "ago") how1 /\
     told (Z.abs (e_now E 1 - seconds (instant ld))) (if e_now E 1 <? seconds (instant ld) then lit "from now" else lit "ago") how2).
Proof.
  intros E O fs out C Or F H. destruct (C44_stats_partial E O fs out C Or F H) as (_ & sel & P & _ & K). exists sel. split; [exact P|].
  intros Ne Nz. destruct (K Ne) as (nf & fl & fd & ld & period & nt & rate & na & np & age & accs & pays & files & Q & _ & _ & _ & _ & _ & _ & _ & _ & D).
  destruct (D Nz) as [D1 D2]. exists fd, ld. do 2 eexists. split; [exact D1|]. split; [exact D2|].
  split; [rewrite Q; apply in_or_app; right; apply in_or_app; right; left; reflexivity|].
  split; [rewrite Q; apply in_or_app; right; apply in_or_app; right; right; left; reflexivity|]. split; apply C98_told.
Qed.

(** Told to be two years ago after 547 days. *)
Definition text_old : str := lit "2020-01-01 A" ++ [10] ++ lit "    x    $1" ++ [10] ++ lit "    y    $-1" ++ [10].
Definition later : env :=
  let e := env0 [(lit "j", text_old)] in
  Env (e_unicode e) (e_fs e) (e_depth e) (e_ledger_file e) (e_re_ok e) (e_re_match e) (e_year e) (e_tomorrow e) (e_local e)
    (e_order e) (e_tree_order e) (e_sort e) (fun _ => instant (Date 2021 7 1) * ns).
Theorem C98_refuted : exists E O out, sane_clock E /\ orders E /\ filters_for E (o_args O) [] /\ stats_cmd E O = Outcome out SOk /\
  In (lit "First transaction:" ++ tab ++ lit "2020-01-01 (2 years ago)" ++ [10]) out /\
  e_now E 0 - seconds (instant (Date 2020 1 1)) < years 2.
Proof.
  exists later, (opts3 [] [] false []), (r_out (stats_cmd later (opts3 [] [] false []))).
  split; [intro n; cbn; lia|]. split; [split; intros; apply Permutation_refl|]. split; [apply makeFilters_spec; reflexivity|].
  split; [vm_compute; reflexivity|]. split; [|vm_compute; reflexivity].
  apply nth_error_In with (n := 2%nat). vm_compute. reflexivity.
Qed.

Example C98_example : let E := env0 files3 in let O := opts3 [] [] false [] in
  sane_clock E /\ orders E /\ filters_for E (o_args O) [] /\ r_status (stats_cmd E O) = SOk /\
  humanize (seconds 100) (seconds 100) = lit "now" /\ humanize (seconds 100) (seconds 40) = lit "1 minute ago" /\
  humanize 0 (seconds (400 * 86400)) = lit "1 year from now" /\ humanize (years 37) 1 = lit "36 years ago" /\ humanize (years 400) 0 = lit "a long while ago".
Proof.
  intros E O. split; [apply env0_clock|]. split; [apply env0_orders|]. split; [apply makeFilters_spec; reflexivity|].
  repeat split; vm_compute; reflexivity.
Qed.
