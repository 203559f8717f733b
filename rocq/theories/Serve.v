(** Serve.v -- the answers of the development server: stuart/src/serve/mod.rs:150-200. *)

From Coq Require Import String List NArith ZArith Bool.
From Verif Require Import Text Utf8 Json Base Syntax Tree Disk Dev.
Import ListNotations.

(** [humphrey::route::LocatedPath], as matched at serve/mod.rs:162-165. *)
Inductive located := LocDir | LocFile (p : path).
(** [humphrey::route::try_find_path] with the index file [index.html], serve/mod.rs:159: an arbitrary
    function of the directory, the request and the disk. *)
Definition finder := path -> text -> ent -> option located.
(** [humphrey::http::Response] with the headers that are set, serve/mod.rs:163-196. *)
Record response := Response { rs_status : N; rs_headers : list (text * text); rs_body : bytes }.

(** [serve_dir], serve/mod.rs:156-200, for the directory [dir] ([State::path], 34-36); [js] is [JS]
    (28), [mime] is [MimeType::from_extension].  File names are valid UTF-8, so the [unwrap] of 185
    does not fail. *)
Definition serve_dir (find : finder) (mime : text -> text) (js : bytes) (dir : path) (uri : text) (d : ent) : response :=
  let u := match strip_prefix [c_slash] uri with Some u => u | None => uri end in
  match find dir u d with
  | Some LocDir => Response 301 [(lit "Location", uri ++ [c_slash])] []
  | Some (LocFile p) =>
      match lookup p d with
      | Some (EFile b) =>
          Response 200 (match extension (last p []) with Some e => [(lit "Content-Type", mime e)] | None => [] end) (inject js b)
      | _ => Response 500 [] (lit "Internal Server Error")
      end
  | None => Response 404 [] (lit "Not Found")
  end.
