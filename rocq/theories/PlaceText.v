(** * Journal text: the file each entry is counted for

    As [FilesText.filed], with the file the program names for every entry: the file
    it is written in, up to that file's first include line; after it, the journal
    [top] the program was started with. *)
From Verif Require Import Base Utf8 Utf8Facts Unicode GoTime Journal Lexer Parser Spec TextSpec JournalText BookText FilesText.

Section Places.
Variables (U : unicode) (fs : str -> option file) (top : str).

(** [placed n cur path ls ws]: as [filed n path ls ws], when the entries of the file
    [path] are counted for [cur] until the next include line. *)
Inductive placed : nat -> str -> str -> list str -> list (str * writing) -> Prop :=
| PlacedEnd : forall n cur path, placed n cur path [] []
| PlacedTxn : forall n cur path ls t ls' ws, txn_written U ls t -> Forall begins (firstn 1 ls') -> placed n cur path ls' ws ->
    placed n cur path (ls ++ ls') ((cur, WTxn t) :: ws)
| PlacedBudget : forall n cur path ls a ls' ws, assignment_written U ls a -> Forall begins (firstn 1 ls') -> placed n cur path ls' ws ->
    placed n cur path (ls ++ ls') ((cur, WBudget a) :: ws)
| PlacedBlank : forall n cur path ls ws, placed n cur path ls ws -> placed n cur path ([] :: ls) ws
| PlacedComment : forall n cur path c l ls ws, comment_sign c -> placed n cur path ls ws -> placed n cur path ((c :: l) :: ls) ws
| PlacedInclude : forall n cur dir base k name bytes inner ws ls ws', (dir = [] \/ last dir 0 = 47) -> ~ In 47 base -> valid_utf8 dir ->
    spelt phrase name -> fs (dir ++ name) = Some (File bytes false) -> lines_written bytes inner ->
    placed n (dir ++ name) (dir ++ name) inner ws -> placed (S n) top (dir ++ base) ls ws' ->
    placed (S n) cur (dir ++ base) ((lit "include" ++ spaces (1 + k) ++ name) :: ls) (ws ++ ws').
End Places.

(** Every journal is such. *)
Lemma placed_filed : forall U fs top n cur path ls ws, placed U fs top n cur path ls ws -> filed U fs n path ls (map snd ws).
Proof.
  induction 1; cbn [map snd]; try (constructor; auto; fail). rewrite map_app. eapply FiledInclude; eauto.
Qed.
Lemma filed_placed : forall U fs top n path ls ws, filed U fs n path ls ws -> forall cur,
  exists ps, map snd ps = ws /\ placed U fs top n cur path ls ps.
Proof.
  induction 1 as [n path|n path ls t ls' ws TW B J IH|n path ls a ls' ws AW B J IH|n path ls ws J IH|n path c l ls ws Cs J IH|n dir base k name bytes inner ws ls ws' D Bs V Sp Fs Lw Ji IHi J IH]; intro cur.
  - exists []. split; [reflexivity|constructor].
  - destruct (IH cur) as (ps & <- & P). exists ((cur, WTxn t) :: ps). split; [reflexivity|]. now apply PlacedTxn.
  - destruct (IH cur) as (ps & <- & P). exists ((cur, WBudget a) :: ps). split; [reflexivity|]. now apply PlacedBudget.
  - destruct (IH cur) as (ps & <- & P). exists ps. split; [reflexivity|]. now apply PlacedBlank.
  - destruct (IH cur) as (ps & <- & P). exists ps. split; [reflexivity|]. now apply PlacedComment.
  - destruct (IHi (dir ++ name)) as (ps & <- & P). destruct (IH top) as (ps' & <- & P'). exists (ps ++ ps').
    split; [apply map_app|]. eapply PlacedInclude; eassumption.
Qed.
