# Formal model of Stuart in Rocq (Coq 8.16.1)

The deliverable is a Gallina model of w-henderson/Stuart (`/repo`, Rust), written function by
function from the source text, and theorems about it.  Everything is in `rocq/theories`;
`properties.jsonl` holds the English properties, `MANIFEST.json` maps them to theorems,
`seeded/LOG.jsonl` records the mutation tests.

Paths below are relative to `/repo/stuart-core/src` unless they start with `stuart/`.

## 1. Layers

| file | models |
| --- | --- |
| `Text.v` | the `char`/`str` operations Stuart uses: `lines`, `trim`, `split`, `split_once`, `strip_prefix`, integer parsing and printing, string order |
| `Utf8.v` | `str::as_bytes`, `std::str::from_utf8`, byte lengths |
| `Json.v` | `humphrey_json::Value`, `Value::get`, `process/stack.rs: get_value`, the `f64 as i32` cast |
| `Base.v` | `error.rs`; results with explicit panics and explicit exhaustion of fuel |
| `Lexer.v` | `parse/parser.rs` |
| `Syntax.v` | tokens, function values, `parse/function.rs`, `functions/parsers/*::parse`, plugins as records |
| `Parse.v` | `parse/mod.rs`, `parse/markdown.rs` |
| `Tree.v` | `fs/mod.rs` (`Node`, `create_from_*`, `get_at_path`, `merge`, metadata), `parse/contents.rs` |
| `Interp.v` | `process/iter.rs`, `process/stack.rs`, `LocatableToken::process`, `functions/parsers/*::execute` |
| `Build.v` | the `Node::process*` functions of `process/mod.rs`; `lib.rs: Stuart` |
| `Disk.v` | a file system with failing calls; `Node::save`, `save_metadata` |
| `Cli.v` | `stuart/src/build.rs`, `config/mod.rs`, `scripts.rs`, `main.rs: clean, bench`, `plugins/mod.rs: load` |
| `Load.v` | `plugins/mod.rs: load_from_source`, `plugins/source.rs`, with git, cargo, the network and the loading of a library as arguments |
| `Dev.v` | `stuart/src/serve/mod.rs` (watch loop, broadcast, script insertion), `error.rs` (report of a located error) |
| `Serve.v` | `stuart/src/serve/mod.rs: serve_dir` |
| `New.v` | `stuart/src/new.rs` with the text of `stuart/tests/basic`, and what it asks of `config/git.rs` |
| `Report.v` | `stuart/src/error.rs`: the text of every error report |
| `Main.v` | `stuart/src/main.rs` as a whole (all commands but `dev`), the reading of the manifest in `build.rs: init`, what is logged, exit statuses |
| `Server.v` | `stuart/src/serve/mod.rs` as a run of the program: the builds, the disk, the terminal and the messages to browsers, for any sequence of events |
| `Js.v` | `stuart/src/plugins/js/json.rs`, and `js/mod.rs` as a plugin whose functions have no name and may set variables |
| `Shipped.v` | `plugins/imgopt`, `plugins/demo` |
| `Live.v` | `stuart/src/serve/mod.rs` with the user, the channel of events and the builds as a transition system on a real disk (`Dev.v` has the same over abstract sources) |
| `StateCli.v` | builds of projects, `stuart build`, `bench` and `dev` (Cli.v, Main.v, Server.v) with the builder of State.v |
| `State.v` | Interp.v and Build.v with a state that calls of plugin functions read and change; the state of the modules of `stuart/src/plugins/js/mod.rs` |
| `JsLoad.v` | `stuart/src/plugins/js/mod.rs`: from the default export of a module to a plugin, and the calls of its functions |

The model files hold definitions only.  On top of them:

| files | contents |
| --- | --- |
| `Spec*.v` | small independent specifications: data types and relations of their own, without the model's helper functions |
| `*Facts.v`, `ParseInv.v`, `ParseErr.v`, `ParseLoc.v`, `Utf8Run.v`, `BuildTotal.v`, `SiteDisk.v`, `NewSite.v` | lemmas |
| `Conform.v` | the tests of the project (`tests/`, `stuart/src/test.rs`) run in the model: a check of the model, not a proof of a property |
| `Prop*.v` | only the property theorems, each closed by `exact`, with an `Example` on a concrete non-trivial case and `Print Assumptions` beneath |

Conventions.  Every model definition cites the file and lines it models, and a simplification
is stated in the same comment.  `&mut` functions return the new value.  A panic (`unwrap`,
`unreachable!`, `todo!`, `panic!`) is the explicit result `Panic site`.  Loops run on explicit
fuel; running out is the explicit result `OutOfFuel`, and the theorems on totality (C04, C31,
C36) show that it is never the result.

Naming.  `..._refuted` proves that the English property is false of the model, with a witness.
`..._partial` proves the part that holds, and the note in `MANIFEST.json` says what is missing.
All other theorems prove their property in full.

## 2. Oracles

What the code calls in other libraries is an argument of the model, and every theorem holds for
all values of it:

- record `host`: `char::is_alphanumeric` on non-ASCII characters, `pulldown_cmark`, `dateparser`
  together with `chrono`, `humphrey_json`'s parser;
- plugin functions and plugin parsers: arbitrary functions of the scope and the call.  Theorems
  that need a plugin to be well behaved (not to panic, not to touch enclosing scopes) say so;
- scripts: arbitrary functions on the disk; plugin loading: an arbitrary predicate on sources;
- events delivered by the watcher: arbitrary interleavings within the rules stated in `Dev.v` and `Live.v`;
- failures of the file system: any call may fail, and may leave arbitrary content at its target;
- V8: only its object model for JSON values (order of keys, `__proto__`, duplicates), from the
  ECMAScript specification.

## 3. What is not modelled

- all colour of terminal output, the text of log lines after their verb, the times shown by `bench`; argument
  parsing by clap; `stuart/src/test.rs`; git itself (its answers and the effect of `git init` are
  arguments); the reading of a manifest by the `toml` library (an arbitrary function, `w_toml`);
- git, cargo, the network and `dlopen` themselves: arbitrary answers (`loader` of `Load.v`);
- serving: HTTP and the websocket protocol of `humphrey`; its search for the file of an address is an
  argument with a stated contract (`finds`, C82); the choice of connections and the responses are modelled;
- V8 itself: a JavaScript function is an arbitrary function that may set variables; what a module
  exports is an arbitrary value;
- memory, threads, stack overflow, integer overflow of line counters above 2^32 (counters are
  unbounded), timing.

Simplifications (each is also stated at its definition): paths are lists of components without
links; file names are valid UTF-8 text; directory listings arrive in an arbitrary given order;
plugins keep no state of their own except in State.v and StateCli.v (C20, C45, C66, C67, C72, C88, C92, C94, C95, C96); all other theorems are about plugins without state; disk reads during a build see one state of the disk.

## 4. Properties

### Parsing (`PropParse.v`, `PropMarkdown.v`)

| id | result | how |
| --- | --- | --- |
| C01 | proved | induction over `extract_until` for texts without an opening pair of braces |
| C02 | proved | `SpecTemplate.escape` read back by the lexer; induction over the text (`EscapeFacts.v`) |
| C03 | proved | printing relation of `SpecTemplate.v` with arbitrary whitespace; the parser inverts it (`CallFacts.v`, `ParseFacts.v`) |
| C04 | **refuted**, partial | `{{ f("` at the end of a file panics: `RawArgument::parse` unwraps `None`.  Proved: parsing always ends; the panicking texts are exactly those of the grammar in `SpecBreak.v` (`C04_exact_partial`); all others that are not templates (C74) are reported as errors (`C04_reported_partial`) |
| C05 | proved | `SpecLocation.tag_at`: lines counted from the consumed prefix |
| C06 | **refuted**, partial | the first column is 1 on the first line and 0 on the others.  Proved: the exact column of every tag |
| C07 | proved | invariant of the token loop (`ParseInv.v`) |
| C08, C09, C10 | proved | case analysis of the raw call against the declarative signatures of `SpecTemplate.v` |
| C11, C12 | proved | induction over lines against `SpecMarkdown.v` |
| C13 | **refuted**, partial | lines in a markdown body are counted from the start of the body.  Proved: the reported line is the file line less the height of the front matter |
| C60 | proved | relation `SpecLocation.mistake`: what the first malformed tag looks like and which character the report points at; `ParseLoc.v` |

### Scopes (`PropScope.v`)

| id | result | how |
| --- | --- | --- |
| C14 | proved | lookup against the relation `SpecScope`; induction over the stack and the field path |
| C15 | proved | case analysis on the value found |
| C16, C17 | proved | invariants of execution over arbitrary token lists |
| C18 | **refuted**, partial | `STUART_ENV` is appended after the process environment and lookup takes the first match.  Proved when the environment does not define it, and exactly: the first `STUART_ENV` of the process environment followed by the mode, wherever nothing else is called `env` (`C18_exact_partial`) |
| C19 | proved | the scope of the root template is computed from sections and `$env` alone |

### Rendering (`PropRender.v`)

| id | result | how |
| --- | --- | --- |
| C20 | **refuted**, partial | big-step semantics of nested templates (`SpecRender.v`) against the token interpreter; refuted by C22 and C23, proved for executions in which neither situation arises.  Plugin calls are leaves with any behaviour that depends on the variables in scope (`acts`); unnamed ones may stand anywhere except directly in a conditional (`calm`). `C20_sound_partial`: a page with no loop inside a loop that renders at all is rendered right (`SpecSound.v`, `SoundFacts.v`: the number of blocks the text has open is compared with the number of frames on the stack; once a block goes wrong there are fewer frames than open blocks until the end of the page) |
| C21 | proved | stable sort, reversal, skip and limit against `SpecLoop.v`; code point order equals byte order |
| C22 | **refuted**, partial | with nothing to visit the body is processed once, and then `end(for)` fails.  Without loops inside loops such a page never renders (`C22_fails_partial`); with them it may render and be wrong (`C22_silent_refuted`) |
| C23 | **refuted**, partial | skipped openers do not raise the stack height, so an inner `end` or `else` is taken for that of the conditional.  Proved when the branch not taken contains no block.  Without loops inside loops a page with a block in a branch not taken never renders (`C23_fails_partial`); with them it may render and be wrong (`C23_silent_refuted`) |
| C24 | **refuted**, partial | `ifle` is instantiated with the strict comparison.  The other five are proved |
| C25, C26, C28 | proved | case analysis on the stack; sections by invariant |
| C27 | **refuted**, partial | the height of the stack is not checked after a root template.  Proved for pages, markdown templates and bodies |
| C29 | **refuted**, partial | characters are compared with a length in bytes, so uncut non-ASCII texts can get an ellipsis |
| C30 | proved | words as maximal runs, relation in `SpecLoop.v` |
| C31, C33 | proved | induction on fuel over arbitrary token lists |
| C32 | proved | `SpecUtf8.v` states UTF-8 after RFC 3629; decoding and encoding are proved against it. `C32_build`: raw texts of a template and values of front matter are made of characters of the file (by the grammar), so every html file of the output is UTF-8. Of plugins it is asked only that functions parsed from calls made of characters print text (`scalar_plugins`) |

### Trees and builds (`PropTree.v`)

| id | result | how |
| --- | --- | --- |
| C34, C35 | proved | induction over trees; nearest template by a relation on paths |
| C36 | **refuted**, partial | a loop over markdown files inside a markdown body panics, and so does C04's text.  Proved: without these every build ends in success or an error; a file with C04's text (`SpecReads.breaking`, exact) never builds, and panics if it is the first bad one |
| C37 | proved | paths against `SpecTree.v` |
| C38 | proved | merge as union of two sets of paths |
| C45 | **refuted**, partial | `C45_fresh_partial`: state of the builder after any sequence of operations (`history`), with plugins that keep nothing. `C45_state_partial`: the same in State.v for plugins that keep state, which is then the only thing left of the history (`used`). `C45_state_refuted`: a counter in a JavaScript module. |
| C46 | proved | state of the builder after any sequence of operations |
| C47 | proved | metadata relation on trees |

### Disk and program (`PropDisk.v`, `PropCli.v`, `PropAgain.v`, `PropLoad.v`, `PropDev.v`, `PropJs.v`, `PropSite.v`, `PropNew.v`)

| id | result | how |
| --- | --- | --- |
| C39 | proved | file system calls of a save, replayed on an arbitrary disk |
| C40 | **refuted**, partial | `foo.html` and `foo/index.html` are saved to one path, one is lost silently |
| C41 | **refuted**, partial | static `*.json`, `root.html` and `md.html` are not published |
| C42 | **refuted**, partial | a page called `...html` is written beside the output directory |
| C43 | proved | the output is written after everything else succeeded |
| C44 | **refuted**, partial | `--output .` removes the project |
| C48, C49, C54, C55 | proved | the program's steps over arbitrary disks and scripts |
| C50 | **refuted**, partial | three ways to lose a change: during a build, during the first build, files called `stuart.toml`. PropDev.v has the order of events over abstract sources; PropLive.v the same with real builds on a real disk (`Live.v`). `C50_live_taken` / `C50_live_given`: the executions are exactly the sequences of events of `Server.v`, with other changes in between (simulation both ways), so C92 and C94 hold in all of them. `C50_live_partial`: for a change between builds, or during one if its event is not thrown away at the end (`not_lost`); invariant `hopeful` (an event is on its way and the disk is untouched, or a build has been made since and every further one, by `build_again`, changes nothing): once at rest, the whole disk is as `stuart build` would leave it and browsers have been told; `C50_live_broken_partial`: the same with the error `stuart build` would report. `C50_live_rests_partial`: well-founded order. `C50_live_refuted`: the lost change, as a run of the program |
| C51 | **refuted**, partial | with `save_metadata`, or an output directory not called `dist`, a build can start the next for ever. PropLive.v: the same on a real disk, with the events that the builds of the model cause (`build_paths`): `C51_live_never_partial`, `C51_live_count_partial` by invariants over executions; `C51_live_refuted`: with metadata, any number of builds after one change |
| C52, C53 | proved | `swap_remove` loop as a permutation; first occurrence of `</body>` |
| C56 | **refuted**, partial | duplicate keys, `__proto__`, and integer keys out of order.  Proved: `becomes` (`SpecJs.v`) determines the JavaScript value uniquely and `json_to_js` computes it; likewise back |
| C57 | **refuted**, partial | every JavaScript function panics inside a conditional. `C57_acts`: what a JavaScript function prints and binds is a function of its arguments and the variables in scope (`acts`, `SpecRender.v`); `C57_only_names`: rendering with named functions instead gives the same unless it panics for a name |
| C58 | **refuted**, partial | line 0 panics when overflow checks are on |
| C59 | **refuted**, partial | names never set read as `undefined`, but a name already bound in the block keeps its first value; dotted names cannot be read; a value with `undefined` inside stops the program |
| C61 | proved | `SpecSite.v` describes pages in terms of the files of the content directory only (trees of blocks written in any way the grammar of C74 allows, variables, sections, calls of plugin functions described by their effect); `SiteFacts.v` goes from there to the tree in memory through parsing, loading, preprocessing and rendering, `SiteDisk.v` on to the disk |
| C62 | proved | total correctness on top of C61: `site_in_order` gives success by induction over the content directory, a converse of C61 gives that nothing else is made; `SiteDisk.v` follows every saved entry back to a page; `C62_scripted` allows scripts, a temporary directory (`overlay`: the merge of three described trees) and a metadata file |
| C63 | **refuted**, partial | an absolute name makes git start below the current directory; a quotation mark in a name or in the git user name spoils the manifest.  Proved: what is made, refusal, and containment at every failure point otherwise; the manifest against a small TOML grammar (`SpecNew.v`) for text that needs no escapes; the new project builds to exactly three files, through C62 |
| C64 | **refuted**, partial | in markdown with front matter the shown line is one of the front matter (see C13).  Proved for templates: `MarkerFacts.v` relates the parser's counters to the lines that the printer indexes |
| C65 | proved | evaluation of arguments against the relation `given` of `SpecJs.v` |
| C66 | partial | `AgainFacts.v`: equal sources give equal trees in memory, and a tree determines what is saved (`exactly` determines `what`); for building again, the calls below the output directory are simulated on the bare directory. `C66_temp_refuted`: a `temp` directory present before the first build is merged into it and removed, so the second site lacks it. `C66_state_refuted` (PropStateCli.v): a JavaScript plugin that counts prints other numbers in the second build |
| C67 | **refuted**, partial | induction over the iterations, with C66 at each (`C67_same_partial`). `C67_state_refuted`: a JavaScript plugin counts on from one iteration to the next |
| C68 | partial | `Load.v`, `LoadFacts.v`: all calls lie below `_build` (paths of `create_dir_all` that exist are skipped), invariant over the list of dependencies. `C68_name_refuted`: a dependency called `../../content` has its download written over a page |
| C69 | partial | induction over the directory tree for the search. `C69_hyphen_refuted`: the library of `my-plugin` is `libmy_plugin.so` but `libmy-plugin.so` is opened; `C69_panic_refuted`: a manifest without package (a workspace) that cargo builds makes the program panic |
| C70 | `C70_order_partial`: `cli_build` gives the same disk and result for every permutation of plugins no two of which clash (SpecPlugins `agreed`, in terms of the names a template can call and the extensions read); `C70_order_refuted`: two plugins with a function `hi`; `C70_added`: a plugin with functions only leaves a successful build as it is. By induction over permutations for the first hit in a list, then congruence (and monotonicity on success) of the parser, the loader and the build in the lookup functions. |
| C71 | `C71_qualified_partial` over the template syntax of SpecTemplate: qualified names split in one way when function names have no colon; `C71_qualified_refuted`: plugin `a` with a function called `b::hi`. |
| C72 | **refuted**, partial | `same_data`, `same_templates`, `page_from`, `edited` (SpecLocal) on the content directory; `C72_local_partial`, `C72_edit_partial` (PropLocal). Proof (ViewFacts, LocalFacts): running tokens only asks the input tree for values of directories and JSON files, so it is the same in the tree without all other files (`prune`); loading, rendering markdown and building commute with that; a file and its templates are found again by their path. Functions of plugins see the variables only, in the model; the Rust interface would let them look at the tree. `C72_state_refuted`: pages share what a JavaScript plugin keeps. |
| C73 | **refuted**, partial | Directory entries are a list in the order of the listing; `shuffled` permutes it at every depth. The loader, preprocessing, template lookup and building are shown to commute with permutations (`OrderFacts.v`); interpreter runs are related by the congruence of `ViewFacts.v`, where the only reader of order is a loop over a directory, whose sorted values are unique when the keys are distinct. The condition is on the sources: the parsed loops, the path they name, and the front matter of the files there. `C73_order_partial`, `C73_saved_partial`; `C73_order_refuted` (unsorted loop), `C73_saved_refuted` (`a.html` against `a.md`). Only success and the output are claimed: which of several errors is reported first does depend on the order, as does the order of metadata.json. |
| C74 | proved | SpecGrammar.v gives the full grammar: `no_tag`/`first_tag` (raw text, escaped pairs, and the third brace after an escaped pair), `loose_args` (empty places are skipped), `loose_template`; `means` adds the functions denoted. `C74_grammar`: `parse_html` succeeds with tokens `ks` iff `means … ks`; both directions by induction on the derivation and on the loops (GrammarFacts.v). `C74_one_meaning`, `C74_one_shape` (ShapeFacts.v), `C74_canonical` (the grammar of C03 is included). |
| C75 | `C75_every_refuted`: no text is read as a backslash followed by a variable. `C75_writable_partial`: a sequence can be written iff no raw text in front of a tag ends in a backslash and the tags are well-formed (`escape`, and `\{` for a final brace). Missing: the backslash case, impossible in the code as it is. |
| C76 | `Main.v` models `main`: dispatch, the log, progress bars, reports and the status. `C76_status`, `C76_level`, `C76_verbose`; `C76_quiet_partial` (all but `bench`) with `C76_quiet_refuted`; `C76_sources_partial` (an error shown with status 0 is that of a plugin source followed by another) with `C76_sources_refuted`. |
| C77 | proved | `C77_build` composes the reading of the manifest, the loading of plugins and C62 (`file_at`); `C77_undo`, `C77_new` compare the whole disk before and after; `C77_failed`. The manifest is read by an arbitrary function of its text. |
| C78 | proved | `C78_build`, `C78_bench`: there is one environment on which the run depends, and its paths are `meant` (walked component by component from any directory) the ones that are used. |
| C79 | `Report.v` models every message, help text and the layout. `C79_identifies_partial` (injectivity of the printed text for located errors whose names have neither line feed nor backquote), `C79_conflict`, `C79_help_partial`; `C79_identifies_refuted` (a page that is not UTF-8), `C79_help_refuted`. Simplification: the text of a failed assertion is the same for both errors. |
| C80 | **refuted**, partial | the default export as a JavaScript value with code (`JsLoad.v`), V8 as an oracle; proper exports described independently (`SpecJsLoad.v`).  Proved for them with different names, from the dependency of the manifest to the code a call runs.  Refuted: of equal names all run the last, no name gives the name `undefined`, an object for the array gives no functions, an entry without code panics when called, a length that is no number panics |
| C81 | proved | the plugins as values (`Shipped.v`, oxipng an arbitrary function of the bytes); the output tree with and without the plugin related file by file (`SpecShipped.v`); both builds are followed side by side, with `ViewFacts.v` for what pages read |
| C82 | proved | `serve_dir` (Serve.v) for an arbitrary finder that keeps the contract `finds` (SpecServe.v), which the examples instantiate with an executable one. `C82_site` combines it with what a save leaves (C39): every file, directory and missing address. `C82_missing`: directories without index. `C82_inside`: nothing outside the output directory. |
| C83 | proved | loading against the grammar of each kind of file (`SpecReads.v`, using `SpecGrammar.means`, `md_parts`, `mistake`); exact both ways for success and panic, the error is that of the first bad entry |
| C84 | proved | the errors of reading (C83) and of rendering (C33) traced back to the bytes of the content directory: a blamed tag stands in the text of a file that is there (`SpecBlame.at_tag`, by the template grammar), and a missing template is missing in the directory (`lacking`). Lines of a markdown file count from the body, as C13 says. Plugin functions are assumed to report errors at their own tag (`plugin_ok`) |
| C85 | proved | two runs that differ in the paths of locations only (`SpecAlike`): parser, interpreter and builder take related inputs to related results, including errors, panics and the saved operations (`AlikeFacts`, `MoveFacts`). Plugins must not look at paths (`steady`); proved for JavaScript functions and the shipped plugins. `C85_project` and `C85_command` (PropPlace.v): the calls of a build in a directory do the same to that directory wherever it is (`ops_in`, PlaceFacts.v), merging keeps the relation, and scripts are assumed to be `portable` (SpecPlace.v) |
| C86 | proved | the same relation with the variable `env` bound to objects that agree about the mentioned names; a tag reads only the variables it names (`reads_var`), and a whole object gives the same outcome whatever it holds. `mentioned` is stated on the bytes of the files and the template grammar. `C86_project` (PropMode.v) is about whole projects |
| C87 | proved | PropStop.v. `manifest_fault` (SpecStop.v) lists what can be wrong with a manifest and the error for each, `C87_cases` shows that every other manifest describes a site; `C87_shown` ties the position to the line shown (the manifest parser counts from zero). `clean_stops` names the first thing `stuart clean` cannot remove; `C87_clean` gives message and disk, `C87_cleaned` that there is no other failure. Added after mutants of `start`, `clean_command` and `rmfile` survived. |
| C88 | **refuted**, partial | PropNeeds.v. `needs` (SpecNeeds.v) is the least set of paths named by the tags of the page, its templates and the markdown files of directories already in it; tags are read by the grammar of SpecGrammar.v. `C88_page_partial` compares any two builds, `C88_file_partial` is the case of one file added, removed or edited. Sharper than C72, which wants all markdown and JSON files the same. Proved by showing that both trees answer alike for the tokens of these files (ViewFacts.v), first while the markdown bodies are run and then for the pages. `C88_state_refuted`: pages share what a JavaScript plugin keeps. |
| C89 | proved | PropRename.v. `renamed` (SpecRename.v) compares two directories file by file: an HTML file may become one whose tokens (SpecGrammar.v) differ in the first part of variable names, by a relation that is one-to-one and keeps `env` and `self`. Proved (RenameFacts.v) by a simulation of the two runs in which the frames of the two stacks have related variables and names that start alike, lifted to trees that differ in HTML files only. A template around pages may be renamed only without plugin functions (they may leave frames behind) and plugin files (they are given the tokens of the templates). PropRenameCmd.v: the same for whole runs of `stuart build` (RenameCmd.v, by `main_akin`). |
| C90 | proved | PropExact.v. The converse of C62: `laid_out` (SpecExact.v) says which templates are meant, `site_in_order` is that of C62. ExactFacts.v inverts a successful run block by block (using the soundness of C20 for `single_loops`), giving a derivation of `prints`; then loops over directories, imports, templates and pages are traced back from the loaded tree to the files of the content directory. A template with a loop inside another is excluded, for those may succeed and print something else (C22, C23). Functions of plugins are `tame`; `C90_js` shows that those written in JavaScript are. For unnamed functions the run is compared with one in which every function has a name (`run_named`). Files parsed by plugins are not described by `block`. `C90_scripted` and `C90_command` (PropCommand.v) carry the equivalence to projects with scripts, temporary directory and metadata file and to whole runs of `stuart build` (`prepared`, SpecCommand.v). |
| C91 | proved | PropSwap.v. `interchangeable` and `rewritten` (SpecSwap.v) are stated with the description of printing of C61, `swapped_site` lifts them to directories, and also admits templates that are the same as wholes though they bind different variables (`same_whole`; used for C107). SwapFacts.v: the tags of a template determine its blocks, interchangeable blocks may be replaced in any block around them, and each relation of C61 (data, posts, layouts, pages, order) is carried from one site to the other; with C62 and C90 this gives the claim about builds. SwapLaws.v: what blocks print is determined by the files, and the laws; those for loops use that the values a loop visits are determined (C21). Exchanging the operands of `ifge` and `ifle` is not a law, because of C24. PropJoinIf.v (JoinIfFacts.v): conditionals in a row with the same condition may be joined if the first binds no variable (`binds_nothing`, SpecJoinIf.v); an example shows that an import in the first breaks this. PropMoveImport.v (MoveImport.v): an import may be moved over blocks that have nothing to do with its variable (`without`, SpecMoveImport.v), by the induction on printing of C107; an example shows that it may not be moved over a use. PropRewrite.v: the same for whole runs of `stuart build` (SpecRewrite.v: `command_ready`, RewriteFacts.v, with C77). |
| C92 | partial | PropServer.v. `Server.v` models a run of `stuart dev` with its disk, its terminal and the messages to browsers, for any sequence of events and edits. `C92_restarted_partial`: simulation between the running server and a new one; a build depends on the context only through the manifest, the plugins and the scripts (ServerFacts.v). `C92_first` and `C92_published_partial` give the published files with the description of C61. `C92_passed`, `C92_errors`. False for changes of the scripts or the manifest while the server runs (`C92_scripts_refuted`, `C92_manifest_refuted`: both are read once) and for pages on which the parser panics, such as one saved with an open quote at its end: the server dies (`C92_panic_refuted`). Also false of JavaScript plugins that keep state (`C92_state_refuted`). |
| C93 | proved | PropMeta.v, PropCommand.v. `tells` (SpecMeta.v) relates the entries to the files by following names in both; it mentions neither the loaded nor the built tree. MetaFacts.v: induction over the content directory through loading, preprocessing and building for what is recorded of each file, merging for the static and the temporary directory, and an equivalence between the places of the output tree and those of its description (C47). Plugins that parse files record what they like, so they are excluded. |
| C94 | **refuted**, partial | PropMode.v. `unaware` (SpecMode.v) uses the description of the mentioned variables of C86. ModeFacts.v: C86 for whole projects (`C86_project`), the simulation of C92 between a running server and a new one, and a comparison of the messages of both programs. `modeless` and `unaware_project` say that the scripts do the same in both modes and leave contents that do not read the mode. The manifest, the plugins and the scripts must be the same at the change as at the start (C92 shows why); messages about loading plugins come once and are kept apart. `C94_state_refuted`: a JavaScript plugin remembers the builds before the change. |
| C95 | **refuted**, partial | PropRecover.v. `clear_way`, `same_but_output` and `attempts` (SpecRecover.v) speak of disks only. RecoverFacts.v: a build with any faults changes nothing apart from the output directory, `temp` and the metadata file, as an invariant over the attempts; a build from a disk with the same sources does below the output directory what it does below a new one (as in C66). `C95_command_partial` is about runs of `stuart build` of projects without scripts and plugins. `C95_state_refuted`: a JavaScript plugin remembers the failed attempts of its process. |
| C96 | proved | PropState.v. State.v is the interpreter and the builder of Interp.v and Build.v with a state handed through every call of a plugin function; `js_behaviour` is the state of JavaScript plugins, one module to a context. SpecState.v: `recording` keeps the list of calls and answers of a run, `scripted` answers from such a list, `replays` says that the answers in the list of one plugin come from running its functions one after the other. `C96_isolated`: every run of any number of builds is the scripted run of its own list, and the list replays for each plugin by itself. `C96_others`: what plugins outside a set keep has no effect. `C96_module`, `C96_modules`: a function of a plugin works with what its own module keeps and with nothing else, and a run with JavaScript plugins with the modules of these plugins. `C96_stateless`, `C96_native`: State.v agrees with Build.v where the answers do not depend on the state. StateFacts.v proves these from one theorem on relations between state transformers that are closed under the operations used (`R_builds`). `C20_state_partial` (SRenderFacts.v) gives the order of the calls, as C20 does without state. `C96_commands`, `C96_programs` (PropStateCli.v): the commands of Cli.v, Main.v and Server.v are those of StateCli.v where the answers do not depend on the state, so that what is proved of them holds of such plugins. `C96_isolated_commands`: what `C96_isolated` says of builds holds of whole runs of build, bench and dev, through builds that fail as well (`call_by_call`, SpecState.v). |
| C97 | proved | PropRegress.v. SpecRegress.v: `fault_of` is the fault of one page in the sense of C84, `untouched` says that nothing a page depends on (`needs`, C88) is the changed file, `inert` is a file that is only copied. RegressFacts.v: only the changed file can be unreadable (C83 for the site that built); a file that is untouched has the same templates and sees the same answers (`loaded_view`, `ready_view` of NeedsFacts.v), so its body and its page come out if they did before, whatever happens to others; the file whose error ends the build is therefore not untouched. `C97_safe` holds for panics as well, for any plugins without state. |
| C98 | proved | PropSettings.v. SpecSettings.v: `configured cf c` is the project with other settings, `leaves` the disk and the result of a build, `goes` where a file is with extensions left out (the static files, `copied`, stay). SettingsFacts.v: the two trees are equal but for what is recorded for the metadata (`bare`), through building and merging (`merged_twins`, `merge_bare`); a page and a static file never share a place in a merged tree (`merge_free`: no two directories of one name, so a merge meets every file; `merged_files`); the files written by the two saves correspond one by one and in order (`stripping_all`, `data_all`), so that the last one written at a place does too (`last_moved`, `last_data`). The post-build scripts are to do nothing, except in `C98_build` and `C98_titled`. `C98_strip` asks that no two files are moved to one place; otherwise one of them is lost (C40). |
| C99 | proved | PropCopies.v. SpecCopies.v: `closest` is the file that is in force as a template for a directory, from the files alone, `same_templates_at`, `same_kind` (same ending, no template), `placeless` (the relation of C85 with all places related). CopyFacts.v: the name has no part in what is read and rendered (`create_named`, `preprocess_named`, `process_named`); the template in force is the closest (`force_split`, `force_file`), so two directories with the same closest files have templates that differ in positions only (`template_like`); the page is first rendered in the other site as for C88, then at the other place as for C85 (`other_page`). Both builds succeed. |
| C100 | proved | PropLines.v. SpecLines.v: `same_lines` (texts that differ in the way lines end, symmetric), `sources_lines`, `posts_lines`, `output_lines`, `one_line` (by the grammar of C74), `line_blind` plugins. LineFacts.v: the grammar gives the two texts the same tags and raw texts with the same lines (`template_lines`); LineRun.v: markdown files are read alike (`markdown_lines`); runs go through scopes that differ in line ends only (`run_lines`), up to the whole site (`build_goes`, `posts_build`). An example shows that text arguments over the end of a line do make a difference. Errors of two sites that differ in templates are not compared, only that both fail. |
| C101 | proved | PropSections.v. SpecSections.v: `reordered` (blocks of a page with sections exchanged and text outside them changed), `unrelated` sections, `rearranged` sites, `unmoved` plugin functions. SectionFacts.v: what blocks print depends on the sections before them only by the names they insert, and they add the same sections (`carry`); so the page leaves sections that no lookup can tell apart (`reordered_moves`) and the layout prints the same; lifted to sites and projects by the description of pages of C61, C62 and C90. An example shows that a section inserted by another may not be moved behind it. PropRewrite.v: the same for whole runs of `stuart build` (SpecRewrite.v: `command_ready`, RewriteFacts.v, with C77). |
| C102 | proved | PropHistory.v. SpecHistory.v: `past` (commands and sessions of stuart dev in any worlds of the `same_seat`), `same_copy`, `nothing_stale`, `loads_alike`. HistoryFacts.v: every command, with any faults, keeps content, static, the manifest, the plugin files and everything else outside dist and metadata.json (`build_kept`, `clean_kept`, `bench_kept`, `dev_kept`); the last build is then that of C95 on a disk that differs in the output only. A `_build` directory or a metadata file that no build of the project writes is taken not to be there at first: stuart clean removes it. |
| C103 | proved | PropLayout.v. SpecLayout.v: `same_template` (the same raw texts and tags in the sense of `loose_template`, SpecGrammar.v, options of loops permuted), `sources_layout`, `output_layout`, `unplaced` plugins, `same_failure`. ShapeFacts.v: a text has one cutting into raw texts and tags (`one_shape`, also C74_one_shape). LayoutFacts.v: such texts mean the same tokens, and builds from trees whose tokens differ in line and column only go the same way (`near_run`, `layout_build`), as do the calls that write the site (`layout_saved`). LayoutCmd.v: the whole command (`layout_command`), from C104's relation on disks, for projects without scripts whose plugins load without changing the disk. Markdown files are left as they are: their text is a variable (`markdown`) that pages can show. |
| C104 | proved | PropSays.v. SpecSays.v: `says_same` (JSON texts with the same value under the JSON oracle; posts with the same `md_parts`, SpecSite.v), `output_says`, `same_but_data` (two disks that agree at every path but for contents of files named `….json`). SaysFacts.v: trees of sources whose parsed contents are equal build alike (`says_build`); the calls that save them differ in the bytes written to data files only, and disks stay related call by call, faults included (`sib_ops`). AlterFacts.v: the whole command (`says_command`): two disks related entry by entry (`sibs`) stay so through each step of it, for projects without scripts whose plugins load without changing the disk. |
| C105 | proved | PropKeys.v. SpecKeys.v: `same_value` (objects that bind every name to values that are the same, first binding counting), `same_fields`, `sources_fields`, `orderless` (a plugin function run from scopes that differ so gives such scopes, or the same error), `output_fields`. KeysFacts.v: every step of processing keeps scopes alike (`run_fields`), so builds do (`fields_build`). KeysCmd.v: saving, metadata and the whole command; permuting distinct fields is such a change; the shipped plugins are `orderless`. Functions written in JavaScript are plugin functions here and can see the order (`C105_sees`), hence the hypothesis. |
| C106 | proved | PropFields.v. SpecFields.v: `asked` (some tag of a template or of the body of a post reads or sorts by a variable with this name after a dot), `value_on P` (the same but for fields outside `P`), `sources_on`, `heedless` (a plugin function run from scopes that differ so gives such scopes, or the same error). FieldsFacts.v: every step of processing keeps scopes alike as long as its tags ask for fields in `P` (`run_fields`), so builds do (`fields_build`). FieldsCmd.v: saving and the whole command; adding a field is such a change; `fields_list` computes the fields a site asks for (used in the example). |
| C107 | proved | PropShare.v. SpecShare.v: `shared x file` (the same blocks but for loops over the file that are loops over `x`, nothing else being about `x`), `imported` lifts it to sites. ShareFacts.v: blocks print the same in scopes that differ in `x` only, as long as `x` stays bound to the data on the one side (`shared_prints`, `prints_shared`, by induction on printing, both ways); the import in front gives such scopes. The claim about sites is then that of C91, for templates that are the same as wholes (`same_whole`) although they bind different variables. PropRewrite.v: the same for whole runs of `stuart build` (SpecRewrite.v: `command_ready`, RewriteFacts.v, with C77). |
| C108 | proved | PropRelabel.v. SpecRelabel.v: `relabel rho` renames the sections of a block, `relabelled` compares two directories all of whose HTML files differ in this way; `rho` has an inverse. RelabelFacts.v: the renamed blocks print the same with renamed sections (`prints_relabel`, by induction on printing); with the inverse the other direction is the same lemma. The relations of C61 are carried over as for C91, and with C62 and C90 this gives the claim about builds. An example shows that two sections may not get the same name. PropRewrite.v: the same for whole runs of `stuart build` (SpecRewrite.v: `command_ready`, RewriteFacts.v, with C77). |
| C109 | proved | PropUnused.v. SpecUnused.v: `fewer` compares two lists of blocks one of which lacks some sections, `asked_in` says which names the HTML files of a directory insert, `thinned` compares two directories. UnusedFacts.v: blocks that print go on printing the same output without such a section, and agree on the sections asked for (`fewer_drops`, by induction on the relation); a page is determined by its source (`page_one`), which gives the converse for the published files. The relations of C61 are carried over as for C101, in one direction only, and with C62 and C90 this gives the claim about builds. Examples show that the converse is false and that a section that is asked for is needed. PropRewrite.v: the same for whole runs of `stuart build` (SpecRewrite.v: `command_ready`, RewriteFacts.v, with C77). |

Every refutation is a behaviour read in the source, with a concrete witness in the theorem.

## 5. Trusted base

- Coq's kernel (8.16.1), with no check switched off.
- `Print Assumptions` stands beneath every theorem of `Prop*.v` and prints
  "Closed under the global context" for each of them: no axiom is used, neither of this
  development nor of the standard library.
- The reading of the Rust source, function by function, recorded by the citations in the model
  files; the Rust standard library functions of `Text.v` and `Utf8.v`, from their documentation.
- The statements in `Spec*.v` and `Prop*.v`.  Where a statement speaks of whitespace, digits,
  decimal numerals or UTF-8 it uses `SpecChars.v` and `SpecUtf8.v`, which do not depend on the
  model's functions.

## 6. Mutation tests

`seeded/LOG.jsonl` has one line per wrong program: the definition edited, the edit, the claim it
breaks, the theorems that no longer hold and those tightened because they still held.  The edits
are made in a copy of `rocq/theories` outside this repository.  All lemmas and theorems whose
proof fails are admitted in the copy, in order of dependence, so that the list of failing
theorems is an upper bound: a theorem is listed also when only its proof script broke.
