(** New.v -- [stuart new]: stuart/src/new.rs, config/git.rs (what it asks git), and the template
    stuart/tests/basic that is built into the program. *)

From Coq Require Import String List NArith ZArith Bool.
From Verif Require Import Text Utf8 Json Base Syntax Parse Tree Interp Build Disk Cli Dev.
Import ListNotations.

(** The files of the embedded directory, new.rs:16: stuart/tests/basic/content/index.html:1-14. *)
Definition basic_index : text := lit
"{{ begin(""head"") }}
<title>Stuart</title>
{{ end(""head"") }}

{{ begin(""body"") }}
<img src=""/lightning.png"" width=250>

<h2>Welcome to Stuart!</h2>

<p>
  Edit <code>content/index.html</code> and save to reload.
</p>
{{ end(""body"") }}".
(** stuart/tests/basic/content/root.html:1-20. *)
Definition basic_root : text := lit
"<html lang=""en"">
  
<head>
  <meta charset=""UTF-8"">
  <meta http-equiv=""X-UA-Compatible"" content=""IE=edge"">
  <meta name=""viewport"" content=""width=device-width, initial-scale=1.0"">
  <link rel=""stylesheet"" href=""style.css"">
  
  {{ insert(""head"") }}
</head>

<body>
  <main>
    {{ insert(""body"") }}
  </main>
</body>

</html>".
(** stuart/tests/basic/static/style.css:1-22. *)
Definition basic_style : text := lit
"body {
  background-color: #222;
  color: #fff;
  font-family: Arial;
  font-size: 1.25rem;
  margin: 0;
}

main {
  width: 100%;
  margin: 128px auto 0 auto;
  text-align: center;
}

img {
  margin-bottom: 64px;
  filter: drop-shadow(0 0 256px yellow);
}

code {
  font-family: monospace;
}".
(** The embedded directory, new.rs:16 and stuart/tests/basic; the bytes of the picture and of its own
    manifest, which is not used (new.rs:59), are left open. *)
Definition basic_site (png toml : bytes) : ent := EDir
  [(lit "content", EDir [(lit "index.html", EFile (enc basic_index)); (lit "root.html", EFile (enc basic_root))]);
   (lit "static", EDir [(lit "lightning.png", EFile png); (lit "style.css", EFile (enc basic_style))]);
   (lit "stuart.toml", EFile toml)].

(** What git answers ([get_user_name], [get_user_email], config/git.rs:8-34) and what
    [git init] does to the disk when given a path (config/git.rs:37-45): arbitrary. *)
Record git := Git { g_name : option text; g_email : option text; g_init : path -> ent -> ent }.

(** The manifest: new.rs:24-32. *)
Definition new_manifest (g : git) (name : text) : text :=
  lit "[site]" ++ [c_lf] ++ lit "name = """ ++ name ++ lit """" ++
  match g_name g, g_email g with
  | Some n, Some e => [c_lf] ++ lit "author = """ ++ n ++ lit " <" ++ e ++ lit ">"""
  | _, _ => []
  end ++ [c_lf].

(** [extract], new.rs:52-67: the file at [rel] of the embedded directory goes to the same place
    below [root]; no directory is made. *)
Fixpoint extract_ops (root rel : path) (e : ent) : list op :=
  match e with
  | EDir l => flat_map (fun ke => extract_ops root (rel ++ [fst ke]) (snd ke)) l
  | EFile b => if last_is (lit "stuart.toml") rel then [] else [OWrite (root ++ rel) b]
  | EOther => []
  end.
(** The calls before git: new.rs:34-39. *)
Definition new_ops (tpl : ent) (g : git) (name : text) (p : path) : list op :=
  [OMkDir p; OMkDir (p ++ [lit "content"]); OMkDir (p ++ [lit "static"]);
   OWrite (p ++ [lit "stuart.toml"]) (enc (new_manifest g name))] ++ extract_ops p [] tpl.
(** [new], new.rs:19-49, in the directory [cwd], with failures [f] of the calls before git and [f'] of
    those after. *)
Definition new_site (tpl : ent) (g : git) (no_git : bool) (f f' : option fault) (cwd : path) (name : text) (d : ent)
  : ent * res error unit :=
  let p := join_path cwd name in
  match run_ops f (new_ops tpl g name p) d with
  | (d1, false) => (d1, Err (E_Fs FE_Write))
  | (d1, true) =>
      if no_git then (d1, Ok tt)
      else
        match run_ops f' [OWrite (p ++ [lit ".gitignore"]) (enc (lit
"dist/
_build/
metadata.json
"))] (g_init g (join_path cwd (lit "./" ++ name)) d1) with
        | (d2, true) => (d2, Ok tt)
        | (d2, false) => (d2, Err (E_Fs FE_Write))
        end
  end.
