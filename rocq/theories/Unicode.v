(** * Unicode classes used by the lexer and by the filters

    In Latin-1 the classes are written out exactly as in Go's unicode package;
    above U+00FF letters, numbers and upper-case letters are an oracle [U]
    (White_Space is small and written out completely). A negative rune (the
    lexer's eof) is in no class. *)
From Verif Require Import Base Utf8.

Record unicode := {
  u_letter : Z -> bool;
  u_number : Z -> bool;
  u_upper  : Z -> bool;
}.

Definition isSpace (r : Z) : bool :=
  between 9 r 13 || (r =? 32) || (r =? 133) || (r =? 160) ||
  (r =? 5760) || between 8192 r 8202 || (r =? 8232) || (r =? 8233) ||
  (r =? 8239) || (r =? 8287) || (r =? 12288).

Definition isNumber (U : unicode) (r : Z) : bool :=
  if r <? 0 then false
  else if r <=? 255 then
    between 48 r 57 || (r =? 178) || (r =? 179) || (r =? 185) || between 188 r 190
  else u_number U r.

Definition isLetter (U : unicode) (r : Z) : bool :=
  if r <? 0 then false
  else if r <=? 255 then
    between 65 r 90 || between 97 r 122 || (r =? 170) || (r =? 181) || (r =? 186) ||
    between 192 r 214 || between 216 r 246 || between 248 r 255
  else u_letter U r.

Definition isUpper (U : unicode) (r : Z) : bool :=
  if r <? 0 then false
  else if r <=? 255 then
    between 65 r 90 || between 192 r 214 || between 216 r 222
  else u_upper U r.
