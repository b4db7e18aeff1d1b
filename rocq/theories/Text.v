(** The text that [pretty_string] builds, as bytes. *)
From Verif Require Import Coord Goban.

(** src/pieces/goban.rs:424-448: the characters of the source, as code points *)
Definition glyph_char (x : glyph) : N :=
  match x with
  | BlackDisc => 0x25CF
  | WhiteDisc => 0x25CB
  | TopLeft => 0x250F
  | TopRight => 0x2513
  | BottomLeft => 0x2517
  | BottomRight => 0x251B
  | TopEdge => 0x252F
  | BottomEdge => 0x2537
  | LeftEdge => 0x2520
  | RightEdge => 0x2528
  | Cross => 0x253C
  | NewLine => 0x0A
  end%N.

(** [String::push] (src/pieces/goban.rs:423, 447): the bytes of a character in
    UTF-8, here for characters below U+10000 *)
Definition utf8 (c : N) : list N :=
  (if c <? 0x80 then [c]
   else if c <? 0x800 then [0xC0 + c / 64; 0x80 + c mod 64]
   else [0xE0 + c / 4096; 0x80 + (c / 64) mod 64; 0x80 + c mod 64])%N.

(** src/pieces/goban.rs:419-451 [pretty_string], the bytes of the string *)
Definition pretty_bytes (g : goban) : res (list N) :=
  let! l := pretty_string g in
  Ok (List.concat (List.map (fun x => utf8 (glyph_char x)) l)).
