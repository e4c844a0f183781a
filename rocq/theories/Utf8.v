(** * UTF-8 as used by the lexer (parser/lexer.go:314) and by [string(runes)]

    [decode_rune] follows [utf8.DecodeRune] of the Go standard library (its
    table-driven accept ranges written out), [encode_rune] follows
    [utf8.EncodeRune] / the runtime conversion [string([]rune)]. *)
From Verif Require Import Base.

Definition RuneError : Z := 65533.

Definition between (lo x hi : Z) : bool := (lo <=? x) && (x <=? hi).
Definition cont (x : Z) : bool := between 128 x 191.

(** First code point and its width; for non-empty input. *)
Definition decode_rune (p : str) : Z * nat :=
  match p with
  | [] => (RuneError, 0%nat)
  | p0 :: p' =>
      if between 0 p0 127 then (p0, 1%nat)
      else if between 194 p0 223 then
        match p' with
        | b1 :: _ =>
            if cont b1 then ((p0 - 192) * 64 + (b1 - 128), 2%nat)
            else (RuneError, 1%nat)
        | _ => (RuneError, 1%nat)
        end
      else if between 224 p0 239 then
        match p' with
        | b1 :: b2 :: _ =>
            let lo := if p0 =? 224 then 160 else 128 in
            let hi := if p0 =? 237 then 159 else 191 in
            if between lo b1 hi && cont b2
            then ((p0 - 224) * 4096 + (b1 - 128) * 64 + (b2 - 128), 3%nat)
            else (RuneError, 1%nat)
        | _ => (RuneError, 1%nat)
        end
      else if between 240 p0 244 then
        match p' with
        | b1 :: b2 :: b3 :: _ =>
            let lo := if p0 =? 240 then 144 else 128 in
            let hi := if p0 =? 244 then 143 else 191 in
            if between lo b1 hi && cont b2 && cont b3
            then ((p0 - 240) * 262144 + (b1 - 128) * 4096 + (b2 - 128) * 64 + (b3 - 128), 4%nat)
            else (RuneError, 1%nat)
        | _ => (RuneError, 1%nat)
        end
      else (RuneError, 1%nat)
  end.

(** Code points that UTF-8 can carry. *)
Definition valid_rune (r : Z) : bool :=
  between 0 r 55295 || between 57344 r 1114111.

Definition encode_rune (r0 : Z) : str :=
  let r := if valid_rune r0 then r0 else RuneError in
  if r <=? 127 then [r]
  else if r <=? 2047 then [192 + r / 64; 128 + r mod 64]
  else if r <=? 65535 then [224 + r / 4096; 128 + (r / 64) mod 64; 128 + r mod 64]
  else [240 + r / 262144; 128 + (r / 4096) mod 64; 128 + (r / 64) mod 64; 128 + r mod 64].

(** [string(runes)] *)
Definition encode (rs : list Z) : str := flat_map encode_rune rs.

(** [[]rune(s)]: all code points, with their widths; fuel is the length. *)
Fixpoint decode_fuel (fuel : nat) (s : str) : list (Z * nat) :=
  match fuel with
  | O => []
  | S f => match s with
           | [] => []
           | _ => let '(r, w) := decode_rune s in (r, w) :: decode_fuel f (skipn w s)
           end
  end.
Definition decode_w (s : str) : list (Z * nat) := decode_fuel (length s) s.
Definition decode (s : str) : list Z := map fst (decode_w s).

(** [utf8.RuneCountInString], used by fmt's padding. *)
Definition rune_count (s : str) : nat := length (decode_w s).

(** fmt [%Ns] (right-justified) and [%-Ns] (left-justified): padding is
    counted in runes (the padString method of fmt). *)
Definition pad_left (n : nat) (s : str) : str := rep (n - rune_count s) 32 ++ s.
Definition pad_right (n : nat) (s : str) : str := s ++ rep (n - rune_count s) 32.
