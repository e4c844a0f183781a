(** * Command lines: specification

    Written from the usage texts of the flags and commands; of the model only the
    names of flags and commands (as inductive types) and the record of options
    are used. *)
From Verif Require Import Base Cmd Main.

(** The flags: long name, letter, whether a value is needed. *)
Definition ch (s : String.string) : Z := hd 0 (lit s).
Inductive documented : flag -> str -> Z -> bool -> Prop :=
| DocFile : documented FFile (lit "file") (ch "f") true
| DocBegin : documented FBegin (lit "begin") (ch "b") true
| DocEnd : documented FEnd (lit "end") (ch "e") true
| DocCurrent : documented FCurrent (lit "current") (ch "c") false
| DocFlatten : documented FFlatten (lit "flatten") (ch "F") false
| DocShowZero : documented FShowZero (lit "show-zero") (ch "Z") false
| DocCollapse : documented FCollapse (lit "collapse") (ch "C") false
| DocHelp : documented FHelp (lit "help") (ch "h") false.

(** The commands and their other names. *)
Definition full_name (c : command) : str :=
  match c with
  | Accounts => lit "accounts" | Balance => lit "balance" | Budget_ => lit "budget"
  | Payees => lit "payees" | Print => lit "print" | Statistics => lit "statistics"
  | Version => lit "version"
  end.
Definition aliases (c : command) : list str :=
  match c with
  | Accounts => [lit "acc"; lit "a"] | Balance => [lit "bal"; lit "b"]
  | Budget_ => [lit "bud"; lit "B"] | Payees => [lit "pay"; lit "p"] | Print => [lit "p"]
  | Statistics => [lit "stats"; lit "s"] | Version => []
  end.
(** Names cobra uses itself. *)
Definition cobra_names : list str := [lit "help"; lit "__complete"; lit "__completeNoDesc"].

(** Which flags a command has. *)
Definition for_all (f : flag) : Prop := f = FFile \/ f = FBegin \/ f = FEnd \/ f = FCurrent.
Definition allowed (c : command) (f : flag) : Prop :=
  for_all f \/ f = FHelp \/
  ((c = Balance \/ c = Budget_) /\ (f = FFlatten \/ f = FShowZero \/ f = FCollapse)).

(** The ways to give the flag [f] the value [v]. *)
Inductive spelled : flag -> str -> list str -> Prop :=
| LongNext : forall f w c v, documented f w c true -> spelled f v [lit "--" ++ w; v]
| LongEquals : forall f w c b v, documented f w c b -> spelled f v [lit "--" ++ w ++ lit "=" ++ v]
| LongAlone : forall f w c, documented f w c false -> spelled f (lit "true") [lit "--" ++ w]
| ShortNext : forall f w c v, documented f w c true -> spelled f v [[ch "-"; c]; v]
| ShortJoined : forall f w c x v, documented f w c true -> x <> ch "=" -> spelled f (x :: v) [ch "-" :: c :: x :: v]
| ShortEquals : forall f w c b x v, documented f w c b -> spelled f (x :: v) [ch "-" :: c :: ch "=" :: x :: v]
| ShortAlone : forall f w c, documented f w c false -> spelled f (lit "true") [[ch "-"; c]].

(** What a value says of a switch. *)
Definition truth (v : str) (b : bool) : Prop :=
  if b then In v [lit "1"; lit "t"; lit "T"; lit "true"; lit "True"; lit "TRUE"]
  else In v [lit "0"; lit "f"; lit "F"; lit "false"; lit "False"; lit "FALSE"].
Definition sensible (f : flag) (v : str) : Prop :=
  (exists w c, documented f w c true) \/ exists b, truth v b.

(** A command line after the command, and what it says in order.  Switches may be
    put behind one dash; after "--" everything is a word. *)
Inductive item := Given (f : flag) (v : str) | Word (s : str).
Definition on (f : flag) : item := Given f (lit "true").
Definition a_switch (f : flag) (c : Z) : Prop := exists w, documented f w c false.
Definition plain_word (s : str) : Prop := s = [] \/ s = lit "-" \/ (s <> [] /\ hd 0 s <> ch "-").

Inductive open_line (ok : flag -> Prop) : list item -> list str -> Prop :=
| LineEnd : open_line ok [] []
| LineFlag : forall f v l its rest, ok f -> sensible f v -> spelled f v l -> open_line ok its rest ->
    open_line ok (Given f v :: its) (l ++ rest)
| LineGroup : forall fs letters its rest, fs <> [] -> Forall ok fs -> Forall2 a_switch fs letters ->
    open_line ok its rest -> open_line ok (map on fs ++ its) ((ch "-" :: letters) :: rest)
| LineWord : forall s its rest, plain_word s -> open_line ok its rest -> open_line ok (Word s :: its) (s :: rest).
Inductive line (ok : flag -> Prop) : list item -> list str -> Prop :=
| LinePlain : forall its l, open_line ok its l -> line ok its l
| LineDashes : forall its l rest, open_line ok its l -> line ok (its ++ map Word rest) (l ++ lit "--" :: rest).

(** Flags before the command. *)
Inductive leading : list item -> list str -> Prop :=
| LeadEnd : leading [] []
| LeadFlag : forall f v l its rest, for_all f -> sensible f v -> spelled f v l -> leading its rest ->
    leading (Given f v :: its) (l ++ rest).

(** What counts is the last value given to a flag, and the words in order. *)
Definition flag_dec (f g : flag) : {f = g} + {f <> g}.
Proof. decide equality. Defined.
Definition last_given (f : flag) (its : list item) : option str :=
  fold_left (fun acc i => match i with
                          | Given g v => if flag_dec f g then Some v else acc
                          | Word _ => acc
                          end) its None.
Definition words (its : list item) : list str :=
  flat_map (fun i => match i with Word s => [s] | Given _ _ => [] end) its.

Definition value (its : list item) (f : flag) (v : str) : Prop :=
  v = match last_given f its with Some v => v | None => [] end.
Definition switch (its : list item) (f : flag) (b : bool) : Prop :=
  match last_given f its with Some v => truth v b | None => b = false end.

Record meant (its : list item) (O : opts) (help : bool) : Prop := Meant {
  m_file : value its FFile (o_file O);
  m_begin : value its FBegin (o_begin O);
  m_end : value its FEnd (o_end O);
  m_current : switch its FCurrent (o_current O);
  m_flatten : switch its FFlatten (o_flatten O);
  m_zero : switch its FShowZero (o_show_zero O);
  m_collapse : switch its FCollapse (o_collapse O);
  m_help : switch its FHelp help;
  m_args : o_args O = words its }.

(** [argv] asks for the command [c] with the options [O]: flags every command has,
    the command's name or another of its names, its flags and words. *)
Definition called (c : command) (name : str) : Prop :=
  name = full_name c \/ (In name (aliases c) /\ c <> Print).
Definition asks (argv : list str) (c : command) (O : opts) (help : bool) : Prop :=
  exists pre its1 name post its2,
    argv = pre ++ name :: post /\ called c name /\ leading its1 pre /\ ~ In name pre /\
    line (allowed c) its2 post /\ meant (its1 ++ its2) O help.

(** What no command line may go on with: a flag that is not there, a value
    missing, or one that says neither yes nor no. *)
Inductive bad (ok : flag -> Prop) : list str -> Prop :=
| BadLong : forall w tail rest, w ++ tail <> [] -> ~ In (ch "=") w -> (forall f c b, documented f w c b -> ~ ok f) ->
    tail = [] \/ hd 0 tail = ch "=" -> bad ok ((lit "--" ++ w ++ tail) :: rest)
| BadLetter : forall fs letters c more rest, Forall ok fs -> Forall2 a_switch fs letters ->
    (forall f w b, documented f w c b -> ~ ok f) -> c <> ch "=" -> c <> ch "-" -> (forall r, c :: more <> lit "test." ++ r) ->
    bad ok ((ch "-" :: letters ++ c :: more) :: rest)
| BadMissing : forall f w c, ok f -> documented f w c true -> bad ok [lit "--" ++ w]
| BadMissingShort : forall fs letters f w c, Forall ok fs -> Forall2 a_switch fs letters -> ok f -> documented f w c true ->
    bad ok [ch "-" :: letters ++ [c]]
| BadValue : forall f w c v rest, ok f -> documented f w c false -> (forall b, ~ truth v b) ->
    bad ok ((lit "--" ++ w ++ lit "=" ++ v) :: rest).
