(** SpecMeta.v -- what the metadata file says about the files of a project (C93). *)

From Coq Require Import String List NArith Bool.
From Verif Require Import Text Json Base Tree SpecChars SpecTree SpecMarkdown SpecUtf8 SpecSite.
Import ListNotations.

(** An entry with this name. *)
Definition called (v : value) (k : text) : Prop := exists l, v = VObj l /\ In (lit "name", VStr k) l.
(** The entry of a directory with the entries [vs]. *)
Definition dir_entry (k : text) (vs : list value) : value :=
  VObj [(lit "type", VStr (lit "directory")); (lit "name", VStr k); (lit "children", VArr vs)].
(** The entry of a file that is neither markdown nor JSON. *)
Definition plain_entry (k : text) : value := VObj [(lit "name", VStr k); (lit "type", VStr (lit "file"))].
(** The entries at and below those of a list, with the names that lead to them. *)
Inductive listed_at : list value -> list text -> value -> Prop :=
| la_here vs v k : In v vs -> called v k -> listed_at vs [k] v
| la_in vs k vs' ks v : In (dir_entry k vs') vs -> listed_at vs' ks v -> listed_at vs (k :: ks) v.

(** The entry of the file [name] of the content directory, with the bytes [b]. *)
Inductive file_says (h : host) : text -> bytes -> text -> value -> Prop :=
| fs_md stem b t fm body : stem <> [] -> utf8_text b t -> md_parts t fm body ->
    file_says h (stem ++ lit ".md") b (stem ++ lit ".html")
      (VObj [(lit "name", VStr (stem ++ lit ".html")); (lit "type", VStr (lit "markdown"));
             (lit "value", VObj (map (fun kv => (fst kv, VStr (snd kv))) fm))])
| fs_json name b t j : has_ext name (lit "json") -> utf8_text b t -> h_json h t = Some j ->
    file_says h name b name (VObj [(lit "name", VStr name); (lit "type", VStr (lit "json")); (lit "value", j)])
| fs_other name b : ~ has_ext name (lit "md") -> ~ has_ext name (lit "json") -> file_says h name b name (plain_entry name).

(** The entries [vs] tell the files and directories of [content] and of [others], and nothing else. *)
Record tells (h : host) (content : ent) (others : list ent) (vs : list value) : Prop := {
  tells_only : forall ks k v, listed_at vs (ks ++ [k]) v ->
    (exists vs' e l, v = dir_entry k vs' /\ In e (content :: others) /\ ent_at e (ks ++ [k]) (EDir l)) \/
    (exists name b, ent_at content (ks ++ [name]) (EFile b) /\ file_says h name b k v) \/
    (exists e b, In e others /\ ent_at e (ks ++ [k]) (EFile b) /\ v = plain_entry k);
  tells_dirs : forall ks k e l, In e (content :: others) -> ent_at e (ks ++ [k]) (EDir l) -> exists vs', listed_at vs (ks ++ [k]) (dir_entry k vs');
  tells_files : forall ks name b, ent_at content (ks ++ [name]) (EFile b) -> exists k v, file_says h name b k v /\ listed_at vs (ks ++ [k]) v;
  tells_others : forall ks k e b, In e others -> ent_at e (ks ++ [k]) (EFile b) -> listed_at vs (ks ++ [k]) (plain_entry k)
}.
