(** SpecNew.v -- what [stuart new] should make (C63): the tree of a new project, its manifest as a
    TOML document, and its page. *)

From Coq Require Import String List NArith ZArith Bool.
From Verif Require Import Text Utf8 Json Base Tree Disk New SpecScope SpecTree SpecDisk.
Import ListNotations.

(** The entries of a new project, besides [.git]. *)
Definition fresh_project (manifest index root png style : bytes) (ignore : option bytes) : ent := EDir
  ([(lit "content", EDir [(lit "index.html", EFile index); (lit "root.html", EFile root)]);
    (lit "static", EDir [(lit "lightning.png", EFile png); (lit "style.css", EFile style)]);
    (lit "stuart.toml", EFile manifest)] ++
   match ignore with Some b => [(lit ".gitignore", EFile b)] | None => [] end).
(** [git init] of an existing directory makes [.git] in it and changes nothing else. *)
Definition only_git (init : path -> ent -> ent) : Prop := forall p d, what p d = KDir ->
  what (p ++ [lit ".git"]) (init p d) = KDir /\
  (ent_distinct d -> ent_distinct (init p d)) /\
  (forall q, ~ above (p ++ [lit ".git"]) q -> what q (init p d) = what q d) /\
  (forall q, ~ above (p ++ [lit ".git"]) q -> ~ above q (p ++ [lit ".git"]) -> lookup q (init p d) = lookup q d).
(** A name that is not an absolute path. *)
Definition relative (name : text) : Prop := forall r, name <> c_slash :: r.

(** ** Manifests *)
Inductive hex_digit : char -> N -> Prop :=
| hd_digit n : (n < 10)%N -> hex_digit (48 + n)%N n
| hd_upper n : (n < 6)%N -> hex_digit (65 + n)%N (10 + n)%N
| hd_lower n : (n < 6)%N -> hex_digit (97 + n)%N (10 + n)%N.
Inductive hex : text -> N -> Prop :=
| hx_nil : hex [] 0%N
| hx_snoc d c n v : hex d n -> hex_digit c v -> hex (d ++ [c]) (16 * n + v)%N.
(** What is between the quotes of a basic string of TOML, and the text it stands for. *)
Inductive toml_string : text -> text -> Prop :=
| ts_nil : toml_string [] []
| ts_char c t s : c <> c_quote -> c <> c_bslash -> (c = 9 \/ 31 < c)%N -> c <> 127%N -> toml_string t s -> toml_string (c :: t) (c :: s)
| ts_quote t s : toml_string t s -> toml_string (c_bslash :: c_quote :: t) (c_quote :: s)
| ts_back t s : toml_string t s -> toml_string (c_bslash :: c_bslash :: t) (c_bslash :: s)
| ts_tab t s : toml_string t s -> toml_string (c_bslash :: 116%N :: t) (9%N :: s)
| ts_lf t s : toml_string t s -> toml_string (c_bslash :: 110%N :: t) (c_lf :: s)
| ts_cr t s : toml_string t s -> toml_string (c_bslash :: 114%N :: t) (c_cr :: s)
| ts_code n t s c d : (n = 117%N /\ length d = 4) \/ (n = 85%N /\ length d = 8) -> hex d c -> toml_string t s -> toml_string (c_bslash :: n :: d ++ t) (c :: s).
Definition spaces_tabs (t : text) : Prop := Forall (fun c => c = 32%N \/ c = 9%N) t.
(** What may follow a value on its line. *)
Definition line_end (t : text) : Prop := exists w r, t = w ++ r /\ spaces_tabs w /\ (r = [] \/ exists c, r = 35%N :: c).
(** A line that gives [key] the string [s]. *)
Definition toml_line (key s t : text) : Prop :=
  exists w1 w2 w3 u r, t = w1 ++ key ++ w2 ++ lit "=" ++ w3 ++ [c_quote] ++ u ++ [c_quote] ++ r /\
    spaces_tabs w1 /\ spaces_tabs w2 /\ spaces_tabs w3 /\ toml_string u s /\ line_end r.
(** A manifest whose first table is [site], with this name and author, on the first lines. *)
Definition site_manifest (t name : text) (author : option text) : Prop :=
  exists l, toml_line (lit "name") name l /\ ~ In c_lf l /\
  match author with
  | None => t = lit "[site]" ++ [c_lf] ++ l ++ [c_lf]
  | Some a => exists l', toml_line (lit "author") a l' /\ ~ In c_lf l' /\ t = lit "[site]" ++ [c_lf] ++ l ++ [c_lf] ++ l' ++ [c_lf]
  end.
(** Characters that stand for themselves between quotes. *)
Definition toml_plain (t : text) : Prop := Forall (fun c => c <> c_quote /\ c <> c_bslash /\ (c = 9 \/ 31 < c)%N /\ c <> 127%N) t.

(** The author, when git knows both the name and the address. *)
Definition known_author (name email : option text) : option text :=
  match name, email with Some n, Some e => Some (n ++ lit " <" ++ e ++ lit ">") | _, _ => None end.
(** What git is to ignore. *)
Definition ignored : text := lit
"dist/
_build/
metadata.json
".

(** ** The page of a new project *)
Definition fresh_page : text := lit
"<html lang=""en"">
  
<head>
  <meta charset=""UTF-8"">
  <meta http-equiv=""X-UA-Compatible"" content=""IE=edge"">
  <meta name=""viewport"" content=""width=device-width, initial-scale=1.0"">
  <link rel=""stylesheet"" href=""style.css"">
  
  
<title>Stuart</title>

</head>

<body>
  <main>
    
<img src=""/lightning.png"" width=250>

<h2>Welcome to Stuart!</h2>

<p>
  Edit <code>content/index.html</code> and save to reload.
</p>

  </main>
</body>

</html>".
