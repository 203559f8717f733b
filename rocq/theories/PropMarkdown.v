(** PropMarkdown.v -- properties C11 to C13: markdown files. *)

From Coq Require Import String List NArith ZArith Bool Lia.
From Verif Require Import Text TextFacts Base Syntax Parse SpecTemplate SpecLocation SpecMarkdown MarkdownFacts.
Import ListNotations.
Local Open Scope N_scope.

(** ** C11 *)
Theorem C11_front_matter : forall ext plugins file input fs kvs d body,
  opens_front input -> text_lines (lit "---" :: fs ++ d :: body) input ->
  Forall2 pair_line kvs fs -> Forall (fun l => ~ dashes l) fs -> dashes d ->
  parse_markdown ext plugins file input =
  match parse_html ext plugins file (with_lf body) with
  | Ok toks => Ok (Markdown kvs toks (with_lf body) None)
  | Err e => Err e
  | Panic p => Panic p
  | OutOfFuel => OutOfFuel
  end.
Proof. exact (fun ext plugins file input fs kvs d body Ho Ht => markdown_front ext plugins file input _ fs kvs d body Ho Ht eq_refl). Qed.
Print Assumptions C11_front_matter.
(** A body written with LF and not ending in one is kept to the letter. *)
Theorem C11_body_kept : forall t ls, text_lines ls t -> ~ In c_cr t -> (forall t', t <> t' ++ [c_lf]) -> with_lf ls = t.
Proof. exact body_kept_lines. Qed.
Print Assumptions C11_body_kept.
Example C11_case : exists m,
  parse_markdown (fun _ => false) [] [] (lit "---" ++ [c_lf] ++ lit " title : ""a: ""b"" ---""" ++ [c_cr; c_lf] ++ lit "----" ++ [c_lf] ++ lit "body") = Ok m /\
  md_front m = [(lit "title", lit "a: ""b"" ---")] /\ md_string m = lit "body".
Proof. eexists. vm_compute. repeat split. Qed.
Example C11_pair : pair_line (lit "title", lit "a: ""b"" ---") (lit " title : ""a: ""b"" ---""").
Proof. apply front_line_iff. reflexivity. Qed.

(** ** C12 *)
Theorem C12_bad_line : forall ext plugins file input fs kvs bad rest,
  opens_front input -> text_lines (lit "---" :: fs ++ bad :: rest) input ->
  Forall2 pair_line kvs fs -> Forall (fun l => ~ dashes l) fs -> ~ dashes bad -> (forall kv, ~ pair_line kv bad) ->
  parse_markdown ext plugins file input = Err (TB file (2 + N.of_nat (length fs)) 0 PE_InvalidFrontmatter).
Proof. exact (fun ext plugins file input fs kvs bad rest Ho Ht => markdown_bad_line ext plugins file input _ fs kvs bad rest Ho Ht eq_refl). Qed.
Print Assumptions C12_bad_line.
Theorem C12_unclosed : forall ext plugins file input fs kvs,
  opens_front input -> text_lines (lit "---" :: fs) input ->
  Forall2 pair_line kvs fs -> Forall (fun l => ~ dashes l) fs ->
  parse_markdown ext plugins file input = Err (TB file (1 + N.of_nat (length fs)) 0 PE_UnexpectedEOF).
Proof. exact (fun ext plugins file input fs kvs Ho Ht => markdown_unclosed ext plugins file input _ fs kvs Ho Ht eq_refl). Qed.
Print Assumptions C12_unclosed.
Theorem C12_no_front : forall ext plugins file input ls,
  ~ opens_front input -> text_lines ls input ->
  parse_markdown ext plugins file input =
  match parse_html ext plugins file (with_lf ls) with
  | Ok toks => Ok (Markdown [] toks (with_lf ls) None)
  | Err e => Err e
  | Panic p => Panic p
  | OutOfFuel => OutOfFuel
  end.
Proof. exact markdown_none. Qed.
Print Assumptions C12_no_front.
(** C11, C12_bad_line and C12_unclosed cover every text that opens a front matter block. *)
Theorem C12_all_cases : forall input, opens_front input ->
  exists fs kvs, Forall2 pair_line kvs fs /\ Forall (fun l => ~ dashes l) fs /\
  (text_lines (lit "---" :: fs) input \/
   (exists d body, dashes d /\ text_lines (lit "---" :: fs ++ d :: body) input) \/
   (exists bad rest, ~ dashes bad /\ (forall kv, ~ pair_line kv bad) /\
      text_lines (lit "---" :: fs ++ bad :: rest) input)).
Proof. exact markdown_cases. Qed.
Print Assumptions C12_all_cases.
Example C12_case : ~ dashes (lit "title: 3") /\ forall kv, ~ pair_line kv (lit "title: 3").
Proof.
  split.
  - intros [r H]. discriminate.
  - intros kv H. apply front_line_iff in H. discriminate.
Qed.

(** ** C13: lines are counted from the start of the body, not of the file. *)
Theorem C13_file_lines_refuted : exists ext plugins file input m k loc q,
  parse_markdown ext plugins file input = Ok m /\ In (LTok k loc) (md_tokens m) /\
  tag_at ext input k q /\ ~ (exists q', tag_at ext input k q' /\ q' <> q) /\
  l_line loc <> 1 + newlines q.
Proof. exact markdown_lines_refuted. Qed.
Print Assumptions C13_file_lines_refuted.
(** The line recorded is the file line minus the height of the front matter block ([fl]); without
    one it is the file line. *)
Theorem C13_body_lines_partial : forall ext plugins file input m k loc,
  parse_markdown ext plugins file input = Ok m -> In (LTok k loc) (md_tokens m) -> is_tag k ->
  exists fl pre cur post q c l first r,
    text_lines (fl ++ pre ++ cur :: post) input /\ front_height input fl /\
    md_string m = with_lf (pre ++ cur :: post) /\
    tag_at ext (md_string m) k (q ++ [c]) /\ last_line_is q l first /\ cur = l ++ r /\
    newlines q = N.of_nat (length pre) /\ l_line loc = 1 + N.of_nat (length pre).
Proof. exact markdown_tag_lines. Qed.
Print Assumptions C13_body_lines_partial.
