(** * Concrete surroundings for the examples *)
From Verif Require Import Base Utf8 Unicode GoTime Strconv Journal Lexer Parser Account Reporting Budget Cmd.

(** Text, to read the results of [Compute]. *)
Definition show (s : str) : String.string :=
  String.string_of_list_ascii (map (fun z => Ascii.ascii_of_N (Z.to_N z)) s).

(** No letters or numbers beyond Latin-1. *)
Definition U0 : unicode :=
  {| u_letter := fun _ => false; u_number := fun _ => false; u_upper := fun _ => false |}.

(** A disk with the given files. *)
Definition disk (files : list (str * str)) (p : str) : option file :=
  match assoc str_eqb p files with Some b => Some (File b false) | None => None end.

Definition no_files : str -> option file := fun _ => None.

(** A UTC machine in 2021 where maps are iterated in insertion order; every
    argument is a valid regular expression that matches any text. *)
Definition env0 (files : list (str * str)) : env :=
  Env U0 (disk files) 5 None (fun _ => true) (fun _ _ => true) (fun _ => 2021)
    (fun _ => instant (Date 2021 7 1) * ns) instant (fun _ _ l => l) (fun _ _ l => l)
    (isort (fun a b => date_before (t_date a) (t_date b))) (fun _ => instant (Date 2021 8 1) * ns).

Definition opts0 (f : String.string) : opts := Opts (lit f) [] [] false [] false false false.
