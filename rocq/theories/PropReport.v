(** PropReport.v -- property C79: the text of error reports. *)

From Coq Require Import String List NArith ZArith Bool.
From Verif Require Import Text Utf8 Json Base Syntax Parse Tree Interp Build Disk Cli Load Dev New Report Main.
From Verif Require Import SpecDisk SpecReport ReportFacts.
Import ListNotations.

(** ** C79 *)
(** From the report of an error with a place one can tell the file, the line, the column and the error.
    Missing: errors without a place. *)
Theorem C79_identifies_partial : forall s d e e' t, one_line (sn_cond s) -> located e -> located e' ->
  printed s d e = Ok t -> printed s d e' = Ok t -> e = e'.
Proof. exact report_identifies. Qed.
Print Assumptions C79_identifies_partial.
(** The report of a conflict names both files. *)
Theorem C79_conflict : forall s d a b a' b' t, tidy_path a -> tidy_path b -> tidy_path a' -> tidy_path b' ->
  printed s d (E_Fs (FE_Conflict a b)) = Ok t -> printed s d (E_Fs (FE_Conflict a' b')) = Ok t -> a = a' /\ b = b'.
Proof. exact conflict_identifies. Qed.
Print Assumptions C79_conflict.
(** The report of a page that is not text does not name the page. *)
Theorem C79_identifies_refuted : exists w bad e,
  main w Quiet (CmdBuild (lit "stuart.toml") (lit "dist")) (two_pages bad []) = (two_pages bad [], Exit 1, [Report (ME e)]) /\
  main w Quiet (CmdBuild (lit "stuart.toml") (lit "dist")) (two_pages [] bad) = (two_pages [] bad, Exit 1, [Report (ME e)]) /\
  snd (fst (main w Quiet (CmdBuild (lit "stuart.toml") (lit "dist")) (two_pages [] []))) = Exit 0 /\
  forall s d1 d2 t1 t2, printed s d1 e = Ok t1 -> printed s d2 e = Ok t2 -> t1 = t2.
Proof. exact unnamed. Qed.
Print Assumptions C79_identifies_refuted.
(** Advice on an error with a place is on the last line of its report. *)
Theorem C79_help_partial : forall s d e t, one_line (sn_cond s) -> located e -> printed s d e = Ok t ->
  forall h, advice e h -> exists pre, last_line t (pre ++ lit "help: " ++ h).
Proof. exact report_helps. Qed.
Print Assumptions C79_help_partial.
(** Advice on other errors is never shown. *)
Theorem C79_help_refuted : exists s d e h t, advice e h /\ printed s d e = Ok t /\ forall a b, t <> a ++ lit "help" ++ b.
Proof. exact unhelpful. Qed.
Print Assumptions C79_help_refuted.

(** A mistake in a page of a project, seen from its directory. *)
Example C79_error : error := E_Parse (TB [lit "w"; lit "content"; lit "a.html"] 2 7 (PE_Expected (lit "}}"))).
Example C79_located : located C79_error.
Proof.
  constructor; repeat (constructor; [repeat split; try discriminate; vm_compute; intuition discriminate|]); constructor.
Qed.
Example C79_text : printed (Screen [lit "w"] true []) (EDir [(lit "w", EDir [(lit "content", EDir [(lit "a.html", EFile (enc (lit "x" ++ [c_lf] ++ lit "y {{ $z")))])])]) C79_error =
  Ok (lit "error: expected `}}`
  --> content/a.html:2:7
  |
2 | y {{ $z
  |      ^^^ error occurred here
  |
  = help: try adding `}}`
").
Proof. reflexivity. Qed.
(** The same when the file has gone, and a conflict. *)
Example C79_gone : printed (Screen [lit "v"] true []) (EDir []) C79_error =
  Ok (lit "error: expected `}}`
  at /w/content/a.html:2:7
  help: try adding `}}`
").
Proof. reflexivity. Qed.
Example C79_clash : printed (Screen [lit "w"] true []) (EDir []) (E_Fs (FE_Conflict [lit "w"; lit "content"; lit "a.html"] [lit "w"; lit "static"; lit "a.html"])) =
  Ok (lit "error: filename conflict between `static/a.html` and `content/a.html`
").
Proof. reflexivity. Qed.
(** Two errors with the same message differ in their advice. *)
Example C79_twins : let p := [lit "a.html"] in
  printed (Screen [] true []) (EDir []) (E_Parse (TB p 1 1 PE_UnexpectedEOF)) <> printed (Screen [] true []) (EDir []) (E_Process (TB p 1 1 XE_UnexpectedEndOfFile)) /\
  parse_msg [] PE_UnexpectedEOF = process_msg XE_UnexpectedEndOfFile.
Proof. split; [discriminate|reflexivity]. Qed.
