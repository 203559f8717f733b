(** SpecServe.v -- what is expected of the development server (C82). *)

From Coq Require Import String List NArith ZArith Bool.
From Verif Require Import Text Utf8 Json Base Syntax Tree Disk Dev Serve SpecTree SpecDisk SpecProject SpecDev.
Import ListNotations.

(** Names that an address gives as they are, and that are safe: without [:], [%], [?], [#] and without two
    dots in a row. *)
Definition url_name (n : text) : Prop :=
  plain n /\ (forall c, In c (lit ":%?#") -> ~ In c n) /\ forall a b, n <> a ++ [c_dot; c_dot] ++ b.
(** The address of a place in the site, without the first slash. *)
Definition address (ks : list text) : text := match ks with [] => [] | h :: r => joined c_slash h r end.
(** The address of a directory. *)
Definition dir_address (ks : list text) : text := match ks with [] => [] | _ => address ks ++ [c_slash] end.
(** What the library promises: files and directories are found by their address; for the address of
    a directory its [index.html] is; nothing else is, and nothing outside the directory. *)
Record finds (find : finder) : Prop := {
  fi_file : forall dir ks d b, Forall url_name ks -> ks <> [] -> what (dir ++ ks) d = KFile b -> find dir (address ks) d = Some (LocFile (dir ++ ks));
  fi_dir : forall dir ks d, Forall url_name ks -> ks <> [] -> what (dir ++ ks) d = KDir -> find dir (address ks) d = Some LocDir;
  fi_none : forall dir ks d, Forall url_name ks -> ks <> [] -> what (dir ++ ks) d = KNone -> find dir (address ks) d = None;
  fi_index : forall dir ks d b, Forall url_name ks -> what (dir ++ ks ++ [lit "index.html"]) d = KFile b ->
    find dir (dir_address ks) d = Some (LocFile (dir ++ ks ++ [lit "index.html"]));
  fi_no_index : forall dir ks d, Forall url_name ks -> what (dir ++ ks ++ [lit "index.html"]) d = KNone -> find dir (dir_address ks) d = None;
  fi_inside : forall dir u d p, find dir u d = Some (LocFile p) -> above dir p
}.
(** The type that is given for a file. *)
Definition typed (mime : text -> text) (name : text) (hs : list (text * text)) : Prop :=
  (exists e, has_ext name e /\ hs = [(lit "Content-Type", mime e)]) \/ ((forall e, ~ has_ext name e) /\ hs = []).
(** What the browser is shown for the file [b]: the file with the script before its first [</body>]. *)
Definition shown (js b body : bytes) : Prop :=
  (exists a c, first_occurrence (lit "</body>") a c b /\ body = a ++ (lit "<script>" ++ js ++ lit "</script>") ++ lit "</body>" ++ c) \/
  ((forall a c, b <> a ++ lit "</body>" ++ c) /\ body = b).
(** The file [b] with the name [name] is the answer. *)
Definition serves (mime : text -> text) (js : bytes) (name : text) (b : bytes) (r : response) : Prop :=
  exists hs body, typed mime name hs /\ shown js b body /\ r = Response 200 hs body.
