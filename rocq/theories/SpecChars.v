(** SpecChars.v -- characters, numerals and UTF-8, independently of the model: the tables of the
    Unicode and ECMAScript standards that the statements rely on. *)

From Coq Require Import String List NArith ZArith Bool.
From Verif Require Import Text.
Import ListNotations.
Local Open Scope N_scope.

(** The 25 characters with the Unicode property White_Space. *)
Definition white_points : list N :=
  [9; 10; 11; 12; 13; 32; 133; 160; 5760; 8192; 8193; 8194; 8195; 8196; 8197; 8198; 8199; 8200;
   8201; 8202; 8232; 8233; 8239; 8287; 12288].
Definition white (c : char) : bool := existsb (N.eqb c) white_points.
Definition blank (t : text) : Prop := forallb white t = true.

(** Letters and digits: the ASCII ones, and beyond ASCII those of the Unicode tables [ext]. *)
Definition digit_points : list N := [48; 49; 50; 51; 52; 53; 54; 55; 56; 57].
Definition letter_points : list N :=
  [65; 66; 67; 68; 69; 70; 71; 72; 73; 74; 75; 76; 77; 78; 79; 80; 81; 82; 83; 84; 85; 86; 87; 88;
   89; 90; 97; 98; 99; 100; 101; 102; 103; 104; 105; 106; 107; 108; 109; 110; 111; 112; 113; 114;
   115; 116; 117; 118; 119; 120; 121; 122].
Definition word_point (ext : char -> bool) (c : char) : bool :=
  existsb (N.eqb c) (digit_points ++ letter_points) || ((127 <? c) && ext c && negb (white c)).
(** Variable names also have _ and . in them, function names _ and :, argument names _. *)
Definition var_point (ext : char -> bool) (c : char) : bool :=
  word_point ext c || existsb (N.eqb c) (lit "_.").
Definition fun_point (ext : char -> bool) (c : char) : bool :=
  word_point ext c || existsb (N.eqb c) (lit "_:").
Definition arg_point (ext : char -> bool) (c : char) : bool :=
  word_point ext c || existsb (N.eqb c) (lit "_").

(** Decimal numerals: what a sequence of digits stands for, read from the right. *)
Inductive numeral : text -> N -> Prop :=
| nu_one d : d < 10 -> numeral [48 + d] d
| nu_more t n d : numeral t n -> d < 10 -> numeral (t ++ [48 + d]) (10 * n + d).
(** Without superfluous zeros in front. *)
Definition canonical (t : text) : Prop := forall r, t = 48 :: r -> r = [].
(** An integer, with or without a sign. *)
Inductive integer : text -> Z -> Prop :=
| in_plain t n : numeral t n -> integer t (Z.of_N n)
| in_plus t n : numeral t n -> integer (43 :: t) (Z.of_N n)
| in_minus t n : numeral t n -> integer (45 :: t) (- Z.of_N n).

(** UTF-8 (RFC 3629, section 4): the byte sequences of one character, by ranges, and the character
    they stand for. *)
Definition tail_byte (b : N) : Prop := 128 <= b <= 191.
Inductive utf8_char : bytes -> char -> Prop :=
| u8_1 a : a <= 127 -> utf8_char [a] a
| u8_2 a b : 194 <= a <= 223 -> tail_byte b -> utf8_char [a; b] ((a - 192) * 64 + (b - 128))
| u8_3 a b c :
    (a = 224 /\ 160 <= b <= 191) \/ (225 <= a <= 236 /\ tail_byte b) \/
    (a = 237 /\ 128 <= b <= 159) \/ (238 <= a <= 239 /\ tail_byte b) ->
    tail_byte c -> utf8_char [a; b; c] ((a - 224) * 4096 + (b - 128) * 64 + (c - 128))
| u8_4 a b c d :
    (a = 240 /\ 144 <= b <= 191) \/ (241 <= a <= 243 /\ tail_byte b) \/ (a = 244 /\ 128 <= b <= 143) ->
    tail_byte c -> tail_byte d ->
    utf8_char [a; b; c; d] ((a - 240) * 262144 + (b - 128) * 4096 + (c - 128) * 64 + (d - 128)).
(** The bytes of a text. *)
Inductive utf8_text : bytes -> text -> Prop :=
| ut_nil : utf8_text [] []
| ut_cons a c b t : utf8_char a c -> utf8_text b t -> utf8_text (a ++ b) (c :: t).
