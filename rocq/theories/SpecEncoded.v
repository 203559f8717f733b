(** SpecEncoded.v -- specification: plugins that make no page with bytes that are not UTF-8 (C32). *)

From Coq Require Import String List NArith ZArith Bool.
From Verif Require Import Text Base Syntax Parse Tree SpecTree SpecUtf8.
Import ListNotations.

(** A file of this parser that is published under a name that ends in .html is UTF-8. *)
Definition html_parser (np : node_parser) : Prop :=
  forall b p c e o name, npa_parse np b p = inr c -> np_process c e = inr o -> po_name o = Some name -> has_ext name (lit "html") ->
    utf8 (match po_contents o with Some b' => b' | None => b end).
