(** Utf8.v -- the byte view of Rust strings: [str::as_bytes], [str::len],
    [std::str::from_utf8] / [String::from_utf8] (strict decoding). *)

From Coq Require Import List NArith Bool.
From Verif Require Import Text.
Import ListNotations.
Local Open Scope N_scope.

(** Unicode scalar values: the values a Rust [char] can take.
    E.g. the elements of [Parser::chars], parse/parser.rs:14. *)
Definition scalar (c : char) : bool := (c <? 55296) || ((57344 <=? c) && (c <? 1114112)).

(** [char::encode_utf8]. Used by [String::push], parse/parser.rs:92,124. *)
Definition enc1 (c : char) : bytes :=
  if c <? 128 then [c]
  else if c <? 2048 then [192 + c / 64; 128 + c mod 64]
  else if c <? 65536 then [224 + c / 4096; 128 + (c / 64) mod 64; 128 + c mod 64]
  else [240 + c / 262144; 128 + (c / 4096) mod 64; 128 + (c / 64) mod 64; 128 + c mod 64].

(** [str::as_bytes]. Used at process/mod.rs:282,328. *)
Definition enc (t : text) : bytes := flat_map enc1 t.

(** [str::len] / [String::len]: length in bytes. Used at excerpt.rs:66,82. *)
Definition len1 (c : char) : N :=
  if c <? 128 then 1 else if c <? 2048 then 2 else if c <? 65536 then 3 else 4.
(** excerpt.rs:66,82. *)
Fixpoint byte_len (t : text) : N :=
  match t with [] => 0 | c :: t' => len1 c + byte_len t' end.

(** The check on continuation bytes made by [str::from_utf8], fs/mod.rs:207, process/mod.rs:248. *)
Definition is_cont (b : N) : bool := (128 <=? b) && (b <? 192).

(** [std::str::from_utf8]: strict UTF-8 (no overlong forms, no surrogates, at most U+10FFFF).
    Each step decodes one character; [fuel] is the number of bytes.
    Used at fs/mod.rs:207, process/mod.rs:248. *)
Fixpoint dec_fuel (fuel : nat) (b : bytes) : option text :=
  match b with
  | [] => Some []
  | b0 :: r0 =>
      match fuel with
      | O => None
      | S f =>
          let cons c r := match dec_fuel f r with Some t => Some (c :: t) | None => None end in
          if b0 <? 128 then cons b0 r0
          else if (194 <=? b0) && (b0 <? 224) then
            match r0 with
            | b1 :: r1 => if is_cont b1 then cons ((b0 - 192) * 64 + (b1 - 128)) r1 else None
            | _ => None
            end
          else if (224 <=? b0) && (b0 <? 240) then
            match r0 with
            | b1 :: b2 :: r2 =>
                let c := (b0 - 224) * 4096 + (b1 - 128) * 64 + (b2 - 128) in
                if is_cont b1 && is_cont b2 && (2048 <=? c) && scalar c then cons c r2 else None
            | _ => None
            end
          else if (240 <=? b0) && (b0 <? 245) then
            match r0 with
            | b1 :: b2 :: b3 :: r3 =>
                let c := (b0 - 240) * 262144 + (b1 - 128) * 4096 + (b2 - 128) * 64 + (b3 - 128) in
                if is_cont b1 && is_cont b2 && is_cont b3 && (65536 <=? c) && scalar c
                then cons c r3 else None
            | _ => None
            end
          else None
      end
  end.
(** fs/mod.rs:207, process/mod.rs:248. *)
Definition from_utf8 (b : bytes) : option text := dec_fuel (length b) b.
