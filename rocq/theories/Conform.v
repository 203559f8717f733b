(** Conform.v -- the tests of the project itself, run in the model: stuart-core/src/tests
    and stuart/src/test.rs.  These are
    checks of the model against what its authors expect of the code, not proofs of properties. *)

From Coq Require Import String List NArith ZArith Bool.
From Verif Require Import Text Utf8 Json Base Syntax Parse Tree Interp Build Js State SpecState.
Import ListNotations.

(** The libraries as far as the tests need them: one paragraph of markdown, two dates, three JSON files.
    Called at process/mod.rs:255-257, functions/parsers/dateformat.rs:62-77 and fs/mod.rs:215-218. *)
Definition ct_md (t : text) : text := lit "<p>" ++ trim t ++ lit "</p>" ++ [c_lf].
(** dateformat.rs:62-77. *)
Definition ct_date (d f : text) : option text :=
  if text_eqb f (lit "%A") then
    if text_eqb d (lit "2022-09-01") then Some (lit "Thursday")
    else if text_eqb d (lit "2022-09-02") then Some (lit "Friday") else None
  else None.
(** A country of tests/testcases/_base/data.json:1-32. *)
Definition ct_country (name continent : string) (attractions : list string) (independence : value) : value :=
  VObj [(lit "name", VStr (lit name)); (lit "continent", VStr (lit continent));
        (lit "attractions", VArr (map (fun s => VStr (lit s)) attractions)); (lit "independence", independence)].
(** tests/testcases/_base/data.json:1-32. *)
Definition ct_data : value := VArr
  [ct_country "United Kingdom" "Europe" ["Buckingham Palace"; "Tower of London"; "Stonehenge"]%string VNull;
   ct_country "United States" "North America" ["Statue of Liberty"; "Grand Canyon"; "Golden Gate Bridge"]%string (VStr (lit "July 4th, 1776"));
   ct_country "Japan" "Asia" ["Tokyo Tower"; "Mount Fuji"; "Osaka Castle"]%string VNull].
(** fs/mod.rs:215-218, by the first characters of the three files. *)
Definition ct_json (t : text) : option value :=
  if starts_with [91%N] t then Some ct_data
  else if starts_with ([123; 10; 32; 32; 34]%N ++ lit "name") t
  then Some (VObj [(lit "name", VStr (lit "Stuart")); (lit "age", VNum (FFin 18 0))])
  else Some (VObj [(lit "string", VStr (lit "functions in markdown"))]).
(** tests/mod.rs:1-8. *)
Definition ct_host : host := Host (fun _ => false) ct_md (Some ct_date) ct_json.

(** tests/testcases/_base/*:1-35. *)
Definition ct_base : ent := EDir [
  (lit "data.json", EFile (lit "[
  {
    ""name"": ""United Kingdom"",
    ""continent"": ""Europe"",
    ""attractions"": [
      ""Buckingham Palace"",
      ""Tower of London"",
      ""Stonehenge""
    ],
    ""independence"": null
  },
  {
    ""name"": ""United States"",
    ""continent"": ""North America"",
    ""attractions"": [
      ""Statue of Liberty"",
      ""Grand Canyon"",
      ""Golden Gate Bridge""
    ],
    ""independence"": ""July 4th, 1776""
  },
  {
    ""name"": ""Japan"",
    ""continent"": ""Asia"",
    ""attractions"": [
      ""Tokyo Tower"",
      ""Mount Fuji"",
      ""Osaka Castle""
    ],
    ""independence"": null
  }
]"));
  (lit "md.html", EFile (lit "{{ begin(""main"") }}
<h1>{{ $self.title }}</h1>
{{ $self.content }}
{{ end(""main"") }}"));
  (lit "posts", EDir [
    (lit "post_1.md", EFile (lit "---
title: ""Post 1""
date: ""2022-09-01""
other_field: ""this has a : colon in it""
---

This is post 1"));
    (lit "post_2.md", EFile (lit "---
title: ""Post 2""
date: ""2022-09-02""
---

This is post 2"))]);
  (lit "root.html", EFile (lit "<html>
<body>
{{ insert(""main"") }}
</body>
</html>"))].
(** [Testcase::new] and [Testcase::run], tests/mod.rs:30-113: what the page [in.html] of a directory becomes, with the
    ends of lines removed. *)
Definition ct_run (specific : ent) (input : bytes) : option bytes :=
  match create_from ct_host [] true [] [] ct_base, create_from ct_host [] true [] [] specific,
        create_from_file ct_host [] true [] (lit "in.html") input with
  | Ok context, Ok more, Ok page =>
      match merge context more with
      | (NDir n ch src, Tree.Done) =>
          let context := NDir n (ch ++ [page]) src in
          let base := new_frame (lit "base") in
          match preprocess (Processor ct_host (Some context) (Some base) false) context with
          | Ok context' =>
              let tokens name := match get_at_path context name with Some f => match n_parsed f with PHtml t => Some t | _ => None end | None => None end in
              match process_file (Processor ct_host (Some context') (Some base) false) (Env [] (tokens (lit "root.html")) (tokens (lit "md.html")))
                      (n_name page) input (n_parsed page) (n_source page) with
              | Ok (NFile _ b _ _ _) => Some (filter (fun c => negb ((c =? c_lf) || (c =? c_cr))%N) b)
              | _ => None
              end
          | _ => None
          end
      | _ => None
      end
  | _, _, _ => None
  end.
(** tests/mod.rs:94-101. *)
Definition ct_expect (out : bytes) : option bytes := Some (filter (fun c => negb ((c =? c_lf) || (c =? c_cr))%N) out).

(** tests/testcases/for_loop_markdown. *)
Example for_loop_markdown_in : bytes := lit "{{ begin(""main"") }}
<ul>
{{ for($post, ""posts/"", sortby=$post.date, order=""desc"") }}
<li>{{ $post.title }}</li>
{{ end(for) }}
</ul>
{{ end(""main"") }}".
Example for_loop_markdown_out : bytes := lit "<html>
<body>
<ul>
<li>Post 2</li>
<li>Post 1</li>
</ul>
</body>
</html>".
Example for_loop_markdown_dir : ent := EDir [
  (lit "in.html", EFile for_loop_markdown_in);
  (lit "out", EFile for_loop_markdown_out)].
Example for_loop_markdown : ct_run for_loop_markdown_dir for_loop_markdown_in = ct_expect for_loop_markdown_out.
Proof. vm_compute. reflexivity. Qed.

(** tests/testcases/for_loop_json_file. *)
Example for_loop_json_file_in : bytes := lit "{{ begin(""main"") }}
<ul>
{{ for($country, ""data.json"") }}
<li>{{ $country.name }} ({{ $country.continent }})</li>
{{ end(for) }}
</ul>
{{ end(""main"") }}".
Example for_loop_json_file_out : bytes := lit "<html>
<body>
<ul>
<li>United Kingdom (Europe)</li>
<li>United States (North America)</li>
<li>Japan (Asia)</li>
</ul>
</body>
</html>".
Example for_loop_json_file_dir : ent := EDir [
  (lit "in.html", EFile for_loop_json_file_in);
  (lit "out", EFile for_loop_json_file_out)].
Example for_loop_json_file : ct_run for_loop_json_file_dir for_loop_json_file_in = ct_expect for_loop_json_file_out.
Proof. vm_compute. reflexivity. Qed.

(** tests/testcases/for_loop_json_object. *)
Example for_loop_json_object_in : bytes := lit "{{ begin(""main"") }}
{{ import($data, ""data.json"") }}
<ul>
{{ for($attraction, $data.0.attractions) }}
<li>{{ $attraction }}</li>
{{ end(for) }}
</ul>
{{ end(""main"") }}".
Example for_loop_json_object_out : bytes := lit "<html>
<body>
<ul>
<li>Buckingham Palace</li>
<li>Tower of London</li>
<li>Stonehenge</li>
</ul>
</body>
</html>".
Example for_loop_json_object_dir : ent := EDir [
  (lit "in.html", EFile for_loop_json_object_in);
  (lit "out", EFile for_loop_json_object_out)].
Example for_loop_json_object : ct_run for_loop_json_object_dir for_loop_json_object_in = ct_expect for_loop_json_object_out.
Proof. vm_compute. reflexivity. Qed.

(** tests/testcases/for_loop_nested. *)
Example for_loop_nested_in : bytes := lit "{{ begin(""main"") }}
<ul>
{{ for($country, ""data.json"") }}
<li>
<ul>
{{ for($attraction, $country.attractions) }}
<li>{{ $attraction }}</li>
{{ end(for) }}
</ul>
</li>
{{ end(for) }}
</ul>
{{ end(""main"") }}".
Example for_loop_nested_out : bytes := lit "<html>
<body>
<ul>
<li>
<ul>
<li>Buckingham Palace</li>
<li>Tower of London</li>
<li>Stonehenge</li>
</ul>
</li>
<li>
<ul>
<li>Statue of Liberty</li>
<li>Grand Canyon</li>
<li>Golden Gate Bridge</li>
</ul>
</li>
<li>
<ul>
<li>Tokyo Tower</li>
<li>Mount Fuji</li>
<li>Osaka Castle</li>
</ul>
</li>
</ul>
</body>
</html>".
Example for_loop_nested_dir : ent := EDir [
  (lit "in.html", EFile for_loop_nested_in);
  (lit "out", EFile for_loop_nested_out)].
Example for_loop_nested : ct_run for_loop_nested_dir for_loop_nested_in = ct_expect for_loop_nested_out.
Proof. vm_compute. reflexivity. Qed.

(** tests/testcases/for_loop_skip_limit. *)
Example for_loop_skip_limit_in : bytes := lit "{{ begin(""main"") }}
<ul>
{{ for($country, ""data.json"", skip=1, limit=1) }}
<li>{{ $country.name }}</li>
{{ end(for) }}
</ul>
{{ end(""main"") }}".
Example for_loop_skip_limit_out : bytes := lit "<html>
<body>
<ul>
<li>United States</li>
</ul>
</body>
</html>".
Example for_loop_skip_limit_dir : ent := EDir [
  (lit "in.html", EFile for_loop_skip_limit_in);
  (lit "out", EFile for_loop_skip_limit_out)].
Example for_loop_skip_limit : ct_run for_loop_skip_limit_dir for_loop_skip_limit_in = ct_expect for_loop_skip_limit_out.
Proof. vm_compute. reflexivity. Qed.

(** tests/testcases/dateformat. *)
Example dateformat_in : bytes := lit "{{ begin(""main"") }}
<ul>
{{ for($post, ""posts/"", sortby=$post.title, order=""asc"") }}
<li>{{ $post.title }} was posted on a {{ dateformat($post.date, ""%A"") }}</li>
{{ end(for) }}
</ul>
{{ end(""main"") }}".
Example dateformat_out : bytes := lit "<html>
<body>
<ul>
<li>Post 1 was posted on a Thursday</li>
<li>Post 2 was posted on a Friday</li>
</ul>
</body>
</html>".
Example dateformat_dir : ent := EDir [
  (lit "in.html", EFile dateformat_in);
  (lit "out", EFile dateformat_out)].
Example dateformat : ct_run dateformat_dir dateformat_in = ct_expect dateformat_out.
Proof. vm_compute. reflexivity. Qed.

(** tests/testcases/excerpt. *)
Example excerpt_in : bytes := lit "{{ begin(""main"") }}
<ul>
{{ for($post, ""posts/"", sortby=$post.title, order=""asc"") }}
<li>{{ excerpt($post.content, 5) }}</li>
{{ end(for) }}
</ul>
<ul>
{{ for($post, ""posts/"", sortby=$post.title, order=""asc"") }}
<li>{{ excerpt($post.content, 100) }}</li>
{{ end(for) }}
</ul>
{{ end(""main"") }}".
Example excerpt_out : bytes := lit "<html>
<body>
<ul>
<li>This ...</li>
<li>This ...</li>
</ul>
<ul>
<li>This is post 1</li>
<li>This is post 2</li>
</ul>
</body>
</html>".
Example excerpt_dir : ent := EDir [
  (lit "in.html", EFile excerpt_in);
  (lit "out", EFile excerpt_out)].
Example excerpt : ct_run excerpt_dir excerpt_in = ct_expect excerpt_out.
Proof. vm_compute. reflexivity. Qed.

(** tests/testcases/ifdefined. *)
Example ifdefined_in : bytes := lit "{{ begin(""main"") }}
<ul>
{{ for($country, ""data.json"") }}

{{ ifdefined($country.independence) }}
<li>{{ $country.name }} gained independence on {{ $country.independence }}.</li>
{{ else() }}
<li>{{ $country.name }} does not celebrate an independence day.</li>
{{ end(ifdefined) }}

{{ end(for) }}
</ul>
{{ end(""main"") }}".
Example ifdefined_out : bytes := lit "<html>
<body>
<ul>
<li>United Kingdom does not celebrate an independence day.</li>
<li>United States gained independence on July 4th, 1776.</li>
<li>Japan does not celebrate an independence day.</li>
</ul>
</body>
</html>".
Example ifdefined_dir : ent := EDir [
  (lit "in.html", EFile ifdefined_in);
  (lit "out", EFile ifdefined_out)].
Example ifdefined : ct_run ifdefined_dir ifdefined_in = ct_expect ifdefined_out.
Proof. vm_compute. reflexivity. Qed.

(** tests/testcases/conditionals. *)
Example conditionals_in : bytes := lit "{{ begin(""main"") }}
{{ import($data, ""testcase.json"") }}

{{ ifeq($data.name, ""Stuart"") }}
<p>Name is Stuart</p>
{{ end(ifeq) }}

{{ ifne($data.name, ""Stuart"") }}
<p>Name is not Stuart</p>
{{ end(ifne) }}

{{ ifeq($data.name, ""Humphrey"") }}
<p>Name is Humphrey</p>
{{ end(ifeq) }}

{{ ifne($data.name, ""Humphrey"") }}
<p>Name is not Humphrey</p>
{{ end(ifne) }}

{{ ifge($data.age, 18) }}
<p>Is an adult</p>
{{ else() }}
<p>Is not an adult</p>
{{ end(ifge) }}

{{ iflt($data.age, 18) }}
<p>Is a child</p>
{{ else() }}
<p>Is not a child</p>
{{ end(iflt) }}

{{ end(""main"") }}".
Example conditionals_out : bytes := lit "<html>
<body>
<p>Name is Stuart</p>
<p>Name is not Humphrey</p>
<p>Is an adult</p>
<p>Is not a child</p>
</body>
</html>".
Example conditionals_dir : ent := EDir [
  (lit "in.html", EFile conditionals_in);
  (lit "out", EFile conditionals_out);
  (lit "testcase.json", EFile (lit "{
  ""name"": ""Stuart"",
  ""age"": 18
}"))].
Example conditionals : ct_run conditionals_dir conditionals_in = ct_expect conditionals_out.
Proof. vm_compute. reflexivity. Qed.

(** tests/testcases/markdown_functions. *)
Example markdown_functions_in : bytes := lit "{{ begin(""main"") }}
<ul>
{{ for($post, ""posts/"", sortby=$post.title, order=""asc"") }}
<li>{{ $post.content }}</li>
{{ end(for) }}
</ul>
{{ end(""main"") }}".
Example markdown_functions_out : bytes := lit "<html>
<body>
<ul>
<li><p>This is post 1</p></li>
<li><p>This is post 2</p></li>
<li><p>This contains functions in markdown.</p></li>
</ul>
</body>
</html>".
Example markdown_functions_dir : ent := EDir [
  (lit "in.html", EFile markdown_functions_in);
  (lit "out", EFile markdown_functions_out);
  (lit "posts", EDir [
    (lit "post_3.md", EFile (lit "---
title: ""Post 3""
date: ""2022-09-03""
---

{{ import($data, ""testcase.json"") }}

This contains {{ $data.string }}."))]);
  (lit "testcase.json", EFile (lit "{
  ""string"": ""functions in markdown""
}"))].
Example markdown_functions : ct_run markdown_functions_dir markdown_functions_in = ct_expect markdown_functions_out.
Proof. vm_compute. reflexivity. Qed.

(** tests/testcases/escape. *)
Example escape_in : bytes := lit "{{ begin(""main"") }}
<ul>
{{ for($post, ""posts/"", sortby=$post.title, order=""asc"") }}
<li>{{ $post.content }} \{{ $self.author }} • \{{ dateformat($self.date, ""%d %B %Y"") }}</li>
{{ end(for) }}
</ul>
{{ end(""main"") }}".
Example escape_out : bytes := lit "<html>
<body>
<ul>
<li><p>This is post 1</p> {{ $self.author }} • {{ dateformat($self.date, ""%d %B %Y"") }}</li>
<li><p>This is post 2</p> {{ $self.author }} • {{ dateformat($self.date, ""%d %B %Y"") }}</li>
<li><p>{{ hello }}</p> {{ $self.author }} • {{ dateformat($self.date, ""%d %B %Y"") }}</li>
</ul>
</body>
</html>".
Example escape_dir : ent := EDir [
  (lit "in.html", EFile escape_in);
  (lit "out", EFile escape_out);
  (lit "posts", EDir [
    (lit "post_3.md", EFile (lit "---
title: ""Post 3""
date: ""2022-09-03""
---

\{{ hello }}"))])].
Example escape : ct_run escape_dir escape_in = ct_expect escape_out.
Proof. vm_compute. reflexivity. Qed.

(** ** The tests of plugins, /repo/stuart/src/test.rs:49-63 *)
(** [add], stuart/tests/js/plugin.mjs:1-4, on integers. *)
Definition ct_add : sjs_code N := fun n vs =>
  match vs with
  | [JsNum (FFin a 0); JsNum (FFin b 0)] => SReturn n (Some (show_Z (a + b)))
  | _ => SReturn n None
  end.
(** Insertion into a sorted list; stuart/tests/js/plugin.mjs:6-20. *)
Fixpoint ct_insert (z : Z) (l : list Z) : list Z :=
  match l with [] => [z] | y :: l' => if (z <=? y)%Z then z :: l else y :: ct_insert z l' end.
(** [bubbleSort], stuart/tests/js/plugin.mjs:6-20, on integers. *)
Definition ct_sort : sjs_code N := fun n vs =>
  let zs := fold_right (fun v l => match v with JsNum (FFin a 0) => ct_insert a l | _ => l end) [] vs in
  SReturn n (Some (tl (flat_map (fun z => lit "," ++ show_Z z) zs))).
(** [inc], stuart/tests/js/plugin.mjs:22-26. *)
Definition ct_inc : sjs_code N := fun n _ => SReturn (n + 1)%N (Some (show_N n)).
(** [magnitude], stuart/tests/js/plugin.mjs:28-31, on integers. *)
Definition ct_magnitude : sjs_code N := fun n vs =>
  match vs with
  | [JsObj [(_, JsNum (FFin a 0)); (_, JsNum (FFin b 0))]] => SReturn n (Some (show_Z (Z.sqrt (a * a + b * b))))
  | _ => SReturn n None
  end.
(** [setVariable], stuart/tests/js/plugin.mjs:33-36. *)
Definition ct_set : sjs_code N := fun n _ => SSet (lit "my_var") (JsStr (lit "set by JavaScript!")) (SReturn n None).
(** [getVariable], stuart/tests/js/plugin.mjs:38-41. *)
Definition ct_get : sjs_code N := fun n _ => SGet (lit "my_var") (fun v => SReturn n (match v with JsStr t => Some t | _ => None end)).
(** stuart/tests/js/plugin.mjs:43-72. *)
Definition ct_functions : list (text * sjs_code N) :=
  [(lit "add", ct_add); (lit "sort", ct_sort); (lit "inc", ct_inc); (lit "magnitude", ct_magnitude); (lit "set", ct_set); (lit "get", ct_get)].
(** stuart/tests/js/plugin.mjs:43-72. *)
Definition ct_code (c : N) (f : text) : option (sjs_code N) := Json.assoc f ct_functions.
(** Content of stuart/tests/js/content/data.json:1-4. *)
Definition ct_js_host : host := Host (fun _ => false) (fun t => t) None
  (fun _ => Some (VObj [(lit "x", VNum (FFin 3 0)); (lit "y", VNum (FFin 4 0))])).
(** stuart/tests/js/content and stuart/tests/js-isolation/content. *)
Definition ct_site (files : list (string * string)) : source_dir :=
  SourceDir [lit "content"] (lit "content") (Some (EDir (map (fun f => (lit (fst f), EFile (lit (snd f)))) files))).
(** stuart/src/test.rs:10-47: the page written. *)
Definition ct_built (ps : list plugin) (d : source_dir) : option bytes :=
  page_of (lit "index.html") (snd (sbuild (js_behaviour ct_code) ct_js_host [] (lit "production") d (stuart_new config_default ps) (fun _ => 0%N))).
(** stuart/src/test.rs:49-58. *)
Example js : ct_built [sjs_plugin 0 (lit "my_js_plugin") (map fst ct_functions)] (ct_site
  [("data.json", "{
  ""x"": 3,
  ""y"": 4
}");
   ("root.html", "{{ insert(""body"") }}");
   ("index.html", "{{ begin(""body"") }}
  {{ my_js_plugin::add(2, 3) }}
  {{ my_js_plugin::sort(1, 5, 3, 6, 8, 4) }}
  {{ my_js_plugin::inc() }} {{ my_js_plugin::inc() }} {{ my_js_plugin::inc() }}
  {{ import($data, ""./data.json"") }} {{ my_js_plugin::magnitude($data) }}
  {{ my_js_plugin::set() }} {{ $my_var }}
  {{ my_js_plugin::get() }}
{{ end(""body"") }}")]%string) = Some (lit "
  5
  1,3,4,5,6,8
  0 1 2
   5
   set by JavaScript!
  set by JavaScript!
").
Proof. vm_compute. reflexivity. Qed.
(** stuart/src/test.rs:60-63. *)
Example js_isolation : ct_built [sjs_plugin 0 (lit "plugin1") [lit "inc"]; sjs_plugin 1 (lit "plugin2") [lit "inc"]] (ct_site
  [("root.html", "{{ insert(""body"") }}");
   ("index.html", "{{ begin(""body"") }}
  {{ plugin1::inc() }} {{ plugin1::inc() }} {{ plugin1::inc() }} {{ plugin2::inc() }} {{ plugin2::inc() }} {{ plugin1::inc() }}
{{ end(""body"") }}")]%string) = Some (lit "
  0 1 2 0 1 3
").
Proof. vm_compute. reflexivity. Qed.
