(** * The whole program: main.go, cmd/root.go, cmd/version.go, the flags and
    names declared in the [init] functions of cmd/*.go, and what reaches the
    terminal.

    The command line is interpreted by cobra v1.1.1 and pflag v1.0.5 (go.mod,
    go.sum); what these do for the declarations of this program is written down
    here from their documentation and is part of what is trusted. *)
From Verif Require Import Base Utf8 Unicode GoTime Strconv Display Journal Lexer Parser Account
  Reporting Budget Cmd Unused.

(** ** Texts of errors *)

(** The position of an item type in the enumeration of parser/lexer.go:21-34,
    as [%s] of transactionbuilder.go:85-132 prints it. *)
Definition item_number (i : itemType) : Z :=
  match i with
  | emptyLineItem => 0 | includeItem => 1 | dateItem => 2 | stateItem => 3 | payeeItem => 4
  | accountItem => 5 | commodityItem => 6 | amountItem => 7 | commentItem => 8
  | transactionHeaderCommentItem => 9 | periodItem => 10 | eofItem => 11
  end.
Definition item_text (i : itemType) : str :=
  match itemType_String (item_number i) with Some s => s | None => [] end.

(** [L] gives the texts of errors made by the standard library. *)
Fixpoint err_text (L : err -> str) (e : err) : str :=
  match e with
  | EUnexpectedLine => lit "unexpected line type during lexing"
  | EUnexpectedDirective d => lit "unexpected directive: " ++ d
  | EInclude => lit "could not lex include directive"
  | EPeriodSpaces => lit "not enough spaces following ~"
  | EAccountSpaces => lit "not enough spaces following account"
  | EExpectedState => lit "expected state but got " ++ item_text stateItem
  | EExpectedPayee => lit "expected payee but got " ++ item_text payeeItem
  | EExpectedAccount => lit "expected account but got " ++ item_text accountItem
  | EExpectedCommodity => lit "expected currency but got " ++ item_text commodityItem
  | EExpectedAmount => lit "expected amount but got " ++ item_text amountItem
  | EMalformedDate s => lit "date is malformed: " ++ s
  | ESmartComponents => lit "unhandled number of smart date components"
  | ESmartYear d => lit "could not parse year: '" ++ d ++ lit "'"
  | ETwoElided => lit "cannot have more than one posting with an elided amount"
  | EUnbalanced => lit "transaction does not balance"
  | ENoJournal => lit "no root journal path provided"
  | EParsingDate e => lit "error parsing date" ++ nl ++ err_text L e
  | EParsingPeriod e => lit "error parsing period" ++ nl ++ err_text L e
  | EParsingAmount e => lit "error parsing amount: " ++ err_text L e
  | EErrorAt e => lit "error at " ++ err_text L e
  | EAt hint n e => hint ++ lit ":" ++ itoa n ++ nl ++ err_text L e
  | EUsage e => err_text L e
  | ETimeParse _ _ | EParseInt _ | EAtoi _ | EOpen _ | ERead _ | ERegexp _ => L e
  end.

(** ** Flags *)

(** cmd/root.go:43-46, cmd/balance.go:41-43, cmd/budget.go:29-31, and the help
    flag cobra adds. *)
Inductive flag := FFile | FBegin | FEnd | FCurrent | FFlatten | FShowZero | FCollapse | FHelp.

Definition flag_name (f : flag) : str :=
  match f with
  | FFile => lit "file" | FBegin => lit "begin" | FEnd => lit "end" | FCurrent => lit "current"
  | FFlatten => lit "flatten" | FShowZero => lit "show-zero" | FCollapse => lit "collapse"
  | FHelp => lit "help"
  end.
Definition flag_short (f : flag) : Z :=
  match f with
  | FFile => 102 | FBegin => 98 | FEnd => 101 | FCurrent => 99
  | FFlatten => 70 | FShowZero => 90 | FCollapse => 67 | FHelp => 104
  end.
(** Boolean flags need no argument (their NoOptDefVal is "true"). *)
Definition flag_bool (f : flag) : bool :=
  match f with FFile | FBegin | FEnd => false | _ => true end.

Definition persistent_flags : list flag := [FFile; FBegin; FEnd; FCurrent].

(** ** Commands *)

(** The commands, in the order their files' [init] functions add them. *)
Inductive command := Accounts | Balance | Budget_ | Payees | Print | Statistics | Version.
Definition commands : list command := [Accounts; Balance; Budget_; Payees; Print; Statistics; Version].

(** The [Use] and [Aliases] fields: cmd/accounts.go:16-17, balance.go:18-19,
    budget.go:14-15, payees.go:18-19, print.go:16-17, stats.go:20-21,
    version.go:14. *)
Definition cmd_names (c : command) : list str :=
  match c with
  | Accounts => [lit "accounts"; lit "acc"; lit "a"]
  | Balance => [lit "balance"; lit "bal"; lit "b"]
  | Budget_ => [lit "budget"; lit "bud"; lit "B"]
  | Payees => [lit "payees"; lit "pay"; lit "p"]
  | Print => [lit "print"; lit "p"]
  | Statistics => [lit "statistics"; lit "stats"; lit "s"]
  | Version => [lit "version"]
  end.
(** Commands cobra adds itself. *)
Definition library_names : list str := [lit "help"; lit "__complete"; lit "__completeNoDesc"].

Definition cmd_flags (c : command) : list flag :=
  match c with
  | Balance | Budget_ => [FFlatten; FShowZero; FCollapse]
  | _ => []
  end ++ persistent_flags ++ [FHelp].
Definition root_flags : list flag := persistent_flags ++ [FHelp].

Definition mem (s : str) (l : list str) : bool := existsb (str_eqb s) l.

(** cobra's Command.findNext *)
Inductive target_ := TCmd (c : command) | TLibrary.
Definition find_next (name : str) : option target_ :=
  match find (fun c => mem name (cmd_names c)) commands with
  | Some c => Some (TCmd c)
  | None => if mem name library_names then Some TLibrary else None
  end.

Definition c_minus_ : Z := 45.
Definition c_eq : Z := 61.

Fixpoint has_prefix (p s : str) : bool :=
  match p, s with
  | [], _ => true
  | x :: p', y :: s' => (x =? y) && has_prefix p' s'
  | _, [] => false
  end.
Definition contains (c : Z) (s : str) : bool := existsb (Z.eqb c) s.

Definition by_name (fl : list flag) (n : str) : option flag :=
  find (fun f => str_eqb (flag_name f) n) fl.
Definition by_short (fl : list flag) (c : Z) : option flag :=
  find (fun f => flag_short f =? c) fl.
Definition no_argument (o : option flag) : bool :=
  match o with Some f => flag_bool f | None => false end.

(** cobra's stripFlags for the root command, whose help flag does not exist yet:
    the arguments that are neither flags nor what seems to be a flag's value. *)
Definition takes_next (s : str) : bool :=
  (has_prefix (lit "--") s && negb (contains c_eq s)
     && negb (no_argument (by_name persistent_flags (skipn 2 s))))
  || (has_prefix (lit "-") s && negb (contains c_eq s) && (length s =? 2)%nat
     && negb (no_argument (by_short persistent_flags (nth 1 s 0)))).
Fixpoint strip_flags (args : list str) : list str :=
  match args with
  | [] => []
  | s :: rest =>
      if str_eqb s (lit "--") then []
      else if takes_next s then
        match rest with
        | [] | [_] => []
        | _ :: rest' => strip_flags rest'
        end
      else if negb (is_nil s) && negb (has_prefix (lit "-") s) then s :: strip_flags rest
      else strip_flags rest
  end.

(** cobra's argsMinusFirstX *)
Fixpoint minus_first (x : str) (args : list str) : list str :=
  match args with
  | [] => []
  | a :: rest => if str_eqb x a then rest else a :: minus_first x rest
  end.

(** ** Parsing the flags of a command: pflag's FlagSet.parseArgs *)

(** The flag variables and the arguments that are not flags. *)
Record fstate := FS { fs_opts : opts; fs_help : bool }.
Definition fs_init : fstate := FS (Opts [] [] [] false [] false false false) false.

(** strconv.ParseBool *)
Definition parse_bool (s : str) : option bool :=
  if mem s [lit "1"; lit "t"; lit "T"; lit "true"; lit "TRUE"; lit "True"] then Some true
  else if mem s [lit "0"; lit "f"; lit "F"; lit "false"; lit "FALSE"; lit "False"] then Some false
  else None.

(** FlagSet.Set; [None]: the value is not acceptable. *)
Definition set_flag (f : flag) (v : str) (s : fstate) : option fstate :=
  let '(FS (Opts file begin end_ current args flatten collapse zero) help) := s in
  match f with
  | FFile => Some (FS (Opts v begin end_ current args flatten collapse zero) help)
  | FBegin => Some (FS (Opts file v end_ current args flatten collapse zero) help)
  | FEnd => Some (FS (Opts file begin v current args flatten collapse zero) help)
  | _ =>
      match parse_bool v with
      | None => None
      | Some b =>
          Some match f with
               | FCurrent => FS (Opts file begin end_ b args flatten collapse zero) help
               | FFlatten => FS (Opts file begin end_ current args b collapse zero) help
               | FCollapse => FS (Opts file begin end_ current args flatten b zero) help
               | FShowZero => FS (Opts file begin end_ current args flatten collapse b) help
               | _ => FS (Opts file begin end_ current args flatten collapse zero) b
               end
      end
  end.
Definition add_args (l : list str) (s : fstate) : fstate :=
  let '(FS (Opts file begin end_ current args flatten collapse zero) help) := s in
  FS (Opts file begin end_ current (args ++ l) flatten collapse zero) help.

(** What one flag argument amounts to: done, or its value is the next argument. *)
Inductive flag_result := FDone (s : fstate) | FNext (f : flag) (s : fstate) | FBad.

Definition done (o : option fstate) : flag_result :=
  match o with Some s => FDone s | None => FBad end.

(** parseLongArg; [s] is the argument without the leading "--". *)
Definition parse_long (fl : list flag) (s : str) (st : fstate) : flag_result :=
  match s with
  | [] => FBad
  | c :: _ =>
      if (c =? c_minus_) || (c =? c_eq) then FBad
      else
        let '(name, value) :=
          match index_of c_eq s 0 with
          | Some i => (firstn i s, Some (skipn (S i) s))
          | None => (s, None)
          end in
        match by_name fl name with
        | None => FBad
        | Some f =>
            match value with
            | Some v => done (set_flag f v st)
            | None => if flag_bool f then done (set_flag f (lit "true") st) else FNext f st
            end
        end
  end.

(** parseShortArg; [s] is the argument without the leading "-". *)
Fixpoint parse_short (fl : list flag) (s : str) (st : fstate) : flag_result :=
  match s with
  | [] => FDone st
  | c :: rest =>
      if has_prefix (lit "test.") s then FDone st
      else match by_short fl c with
           | None => FBad
           | Some f =>
               if (2 <? length s)%nat && (hd 0 rest =? c_eq) then done (set_flag f (skipn 1 rest) st)
               else if flag_bool f then
                 match set_flag f (lit "true") st with
                 | None => FBad
                 | Some st' => parse_short fl rest st'
                 end
               else match rest with
                    | [] => FNext f st
                    | _ => done (set_flag f rest st)
                    end
           end
  end.

Fixpoint parse_args (fl : list flag) (args : list str) (st : fstate) : option fstate :=
  match args with
  | [] => Some st
  | s :: rest =>
      match s with
      | c :: d :: s' =>
          if negb (c =? c_minus_) then parse_args fl rest (add_args [s] st)
          else if (d =? c_minus_) && is_nil s' then Some (add_args rest st)
          else match (if d =? c_minus_ then parse_long fl s' st else parse_short fl (d :: s') st) with
               | FBad => None
               | FDone st' => parse_args fl rest st'
               | FNext f st' =>
                   match rest with
                   | [] => None
                   | v :: rest' =>
                       match set_flag f v st' with
                       | None => None
                       | Some st2 => parse_args fl rest' st2
                       end
                   end
               end
      | _ => parse_args fl rest (add_args [s] st)
      end
  end.

(** ** Running *)

(** What the caller of the program sees: standard output and the exit status
    ([None]: it depends on how the system reacts to includes nested too deep). *)
Record result := Result { p_out : str; p_exit : option Z }.

Section Main.
Variable E : env.
(** Texts of library errors; the help text; what cobra's own commands do. *)
Variable L : err -> str.
Variable help_text : list str -> str.
Variable library : list str -> result.

(** cmd/version.go:17-19 *)
Definition version_cmd (O : opts) : outcome :=
  with_filters E O (fun _ => Outcome [lit "gledger v0.1" ++ nl] SOk).

Definition run_command (c : command) (O : opts) : outcome :=
  match c with
  | Accounts => accounts_cmd E O
  | Balance => balance_cmd E O
  | Budget_ => budget_cmd E O
  | Payees => payees_cmd E O
  | Print => print_cmd E O
  | Statistics => stats_cmd E O
  | Version => version_cmd O
  end.

(** How an outcome reaches the caller: errors of a command are printed with
    fmt.Println and the command returns (cmd/accounts.go:24-31 and its likes);
    errors before it go to standard error and cmd/root.go:50-55 exits with 1;
    log.Fatalln exits with 1; a panic exits with 2. *)
Definition result_of (r : outcome) : result :=
  let out := concat (r_out r) in
  match r_status r with
  | SOk => Result out (Some 0)
  | SErr (EUsage _) => Result out (Some 1)
  | SErr e => Result (out ++ err_text L e ++ nl) (Some 0)
  | SPanic => Result out (Some 2)
  | SFatal => Result out (Some 1)
  | SDeep => Result out None
  end.

(** cobra's Command.execute for a command of the program. *)
Definition execute (c : command) (args : list str) : result :=
  match parse_args (cmd_flags c) args fs_init with
  | None => Result [] (Some 1)
  | Some s => if fs_help s then Result (help_text args) (Some 0)
              else result_of (run_command c (fs_opts s))
  end.

(** The same for the root command: cmd/root.go:37-39 shows the help. *)
Definition execute_root (args : list str) : result :=
  match parse_args root_flags args fs_init with
  | None => Result [] (Some 1)
  | Some s =>
      if fs_help s then Result (help_text args) (Some 0)
      else result_of (with_filters E (fs_opts s) (fun _ => Outcome [help_text args] SOk))
  end.

(** main.go:7-9, cmd/root.go:50-55 and cobra's ExecuteC and Find; [argv] are the
    arguments after the program's name. *)
Definition gledger (argv : list str) : result :=
  match strip_flags argv with
  | [] => execute_root argv
  | name :: _ =>
      match find_next name with
      | None => Result [] (Some 1)
      | Some TLibrary => library argv
      | Some (TCmd c) => execute c (minus_first name argv)
      end
  end.
End Main.
