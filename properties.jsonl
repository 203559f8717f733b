{"id": "C01", "title": "Plain text is reproduced verbatim", "statement": "Parsing a template that contains no `{{` yields no tag at all: an empty template yields no tokens, any other yields exactly one raw token whose text is the whole input, located at line 1, column 1.", "quantifier": "every template text (any Unicode string) without the two-character sequence `{{`", "why_tests_cant": "a test fixes a handful of texts; backslashes, lone braces, CRs and non-ASCII characters in every position must all survive", "anchors": ["stuart-core/src/parse/mod.rs: parse_html", "stuart-core/src/parse/parser.rs: Parser::extract_until, Parser::extract_remaining"]}
{"id": "C02", "title": "Every text can be escaped", "statement": "For every text there is a way of writing it, obtained by putting a backslash in front of pairs of opening braces, such that parsing the written form gives back exactly that text as raw content (and nothing else).", "quantifier": "every text, including runs of braces of any length and texts already containing backslashes", "why_tests_cant": "brace runs of arbitrary length and backslash/brace interactions are unbounded", "anchors": ["stuart-core/src/parse/parser.rs: Parser::extract_until, Parser::extract_remaining"]}
{"id": "C03", "title": "Printed templates parse back to themselves", "statement": "Writing any sequence of raw text, variable tags and function calls in the documented syntax (raw text escaped as in C02; raw text directly before a tag must not end in an opening brace or a backslash), with any amount of whitespace inside the tags and around arguments, and parsing the result succeeds exactly when every call denotes a function, and then yields exactly that sequence of tokens: same order, same names, same positional arguments, same named arguments.", "quantifier": "every finite sequence of template pieces, every choice of whitespace, every argument value", "why_tests_cant": "the space of templates, argument lists and spacing is unbounded", "anchors": ["stuart-core/src/parse/mod.rs: parse_html, parse_variable, parse_function", "stuart-core/src/parse/function.rs: RawArgument::parse"]}
{"id": "C04", "title": "Template parsing is total", "statement": "Parsing any text as a template terminates and returns either a token list or a located error; it never panics.", "quantifier": "every input text, every plugin table", "why_tests_cant": "one crashing input among infinitely many is enough; a test never finds it unless it guesses it", "anchors": ["stuart-core/src/parse/mod.rs: parse_html, parse_function", "stuart-core/src/parse/function.rs: RawArgument::parse"]}
{"id": "C05", "title": "Token line numbers are right", "statement": "The line recorded for a tag is 1 plus the number of newlines in the text before the last character consumed ahead of the tag's first significant character; i.e. it is the line on which the tag's content starts, or the line on which the whitespace just before it ends.", "quantifier": "every template text that parses and every tag in it", "why_tests_cant": "lines must be right after any mix of CR, LF, escapes and earlier tags", "anchors": ["stuart-core/src/parse/parser.rs: Parser::next, Parser::location", "stuart-core/src/parse/mod.rs: parse_html"]}
{"id": "C06", "title": "Columns are counted from 1 on every line", "statement": "The column reported for the first character of a line is the same on every line (1).", "quantifier": "every text and every line of it", "why_tests_cant": "must hold on every line; the first line (the one tests look at) is special in the code", "anchors": ["stuart-core/src/parse/parser.rs: Parser::new, Parser::next"]}
{"id": "C07", "title": "Tokens are well-formed", "statement": "In a successfully parsed template every raw token is non-empty, and every variable tag has a non-empty name made only of alphanumeric characters, `_` and `.`.", "quantifier": "every text that parses", "why_tests_cant": "quantifies over all inputs", "anchors": ["stuart-core/src/parse/mod.rs: parse_html, parse_variable"]}
{"id": "C08", "title": "Positional arguments never follow named ones", "statement": "A function call in which a positional argument comes after a named one is always rejected with the dedicated error; conversely in every accepted call arguments keep their written order.", "quantifier": "every argument list of every length", "why_tests_cant": "unbounded argument lists and spacing", "anchors": ["stuart-core/src/parse/mod.rs: parse_function"]}
{"id": "C09", "title": "Built-in functions win over plugins; plugin functions resolve by short or qualified name", "statement": "A call whose name is a built-in name always resolves to the built-in whatever plugins are loaded; otherwise to the first plugin function whose name, or `plugin::name`, equals the call's name; otherwise parsing fails with the `nonexistent function` error carrying that name.", "quantifier": "every plugin table and every call", "why_tests_cant": "quantifies over all plugin tables", "anchors": ["stuart-core/src/parse/mod.rs: parse_function", "stuart-core/src/functions/mod.rs: FunctionParser::can_parse", "stuart-core/src/lib.rs: define_functions!"]}
{"id": "C10", "title": "Arguments of built-ins are validated exactly", "statement": "Each built-in accepts a call exactly when its arguments have the documented number and kinds (e.g. `for` takes a variable and a string ending in `.json` or `/`, or a variable; `skip`/`limit` once each and non-negative; `order` is asc or desc; `excerpt` takes a non-negative length), and the accepted function carries exactly those values.", "quantifier": "every raw call", "why_tests_cant": "the argument space is unbounded", "anchors": ["stuart-core/src/functions/parsers/*.rs: parse"]}
{"id": "C11", "title": "Front matter round-trips", "statement": "Writing any list of key/value pairs (keys without colon or newline and not starting with ---, values without newline) as a `---` delimited front matter followed by any body and parsing it yields exactly those pairs in order, and the body lines.", "quantifier": "every list of pairs, every body", "why_tests_cant": "values with colons, quotes, dashes; any number of pairs", "anchors": ["stuart-core/src/parse/markdown.rs: parse_markdown"]}
{"id": "C12", "title": "Front matter is never half-read", "statement": "A markdown file that opens a front matter block and never closes it, or that has a line in it that is not `key: \"value\"`, is rejected; a file that does not start with `---` has no front matter and all its lines are body.", "quantifier": "every markdown text", "why_tests_cant": "quantifies over all texts", "anchors": ["stuart-core/src/parse/markdown.rs: parse_markdown"]}
{"id": "C13", "title": "Locations in markdown files are file locations", "statement": "The line recorded for a tag in the body of a markdown file is the line of the file on which the tag is.", "quantifier": "every markdown file", "why_tests_cant": "depends on the length of the front matter, which tests keep empty or do not look at", "anchors": ["stuart-core/src/parse/markdown.rs: parse_markdown", "stuart-core/src/parse/mod.rs: parse_html"]}
{"id": "C14", "title": "Variable lookup is innermost-first and field-wise", "statement": "`$a.b.c` denotes the field path b.c of the innermost binding of `a`: fields of objects by key (first occurrence), elements of arrays by decimal index, null as soon as a step does not exist; bindings of outer scopes are never consulted once an inner binding of the name exists.", "quantifier": "every scope stack, every JSON value, every path", "why_tests_cant": "unbounded nesting of scopes and JSON", "anchors": ["stuart-core/src/process/mod.rs: Scope::get_variable, LocatableToken::process", "stuart-core/src/process/stack.rs: get_value, StackFrame::get_variable"]}
{"id": "C15", "title": "Only strings are printed", "statement": "A variable tag appends exactly the UTF-8 bytes of a string value to the current output; for null, booleans, numbers, arrays, objects and undefined names the build fails with the corresponding error naming the variable, located at the tag, and nothing is printed.", "quantifier": "every scope and value", "why_tests_cant": "all values, all scopes", "anchors": ["stuart-core/src/process/mod.rs: LocatableToken::process"]}
{"id": "C16", "title": "Bindings are block-local", "statement": "Once a `for`, conditional or section block has been processed, the variables visible are exactly those that were visible before it.", "quantifier": "every block body, every scope, any nesting depth", "why_tests_cant": "arbitrary nesting and early exits", "anchors": ["stuart-core/src/functions/parsers/for.rs: execute", "stuart-core/src/functions/parsers/if.rs: execute", "stuart-core/src/functions/parsers/end.rs: execute"]}
{"id": "C17", "title": "Variables are immutable", "statement": "Processing any token never changes the value bound to a name in any enclosing scope: `import` either adds a new name to the current scope or fails with `variable already exists`.", "quantifier": "every token sequence and scope", "why_tests_cant": "all histories of imports", "anchors": ["stuart-core/src/functions/parsers/import.rs: execute"]}
{"id": "C18", "title": "STUART_ENV names the current mode", "statement": "During a build the template variable `$env.STUART_ENV` is the mode the build was started with (production, development, benchmark), whatever the process environment contains.", "quantifier": "every process environment", "why_tests_cant": "depends on the environment the tool is run in", "anchors": ["stuart-core/src/lib.rs: Stuart::build", "stuart-core/src/process/stack.rs: get_value"]}
{"id": "C19", "title": "Templates do not see page variables", "statement": "When a page is rendered into root.html, no variable bound while processing the page (imports, loop variables, `$self`) is visible to root.html; only the page's sections and `$env` are.", "quantifier": "every page and root template", "why_tests_cant": "all pages, all templates", "anchors": ["stuart-core/src/process/mod.rs: process_html, process_markdown"]}
{"id": "C20", "title": "Block structure is respected", "statement": "Processing a properly nested template produces exactly the output of its block structure: sections are recorded with the bytes of their body, loops concatenate their body's output over the items, conditionals produce exactly the chosen branch, errors are those of the first failing tag in execution order.", "quantifier": "every properly nested template, any depth and length, every scope and site", "why_tests_cant": "the language is unbounded; interactions of nesting, loops and branches cannot be enumerated", "anchors": ["stuart-core/src/process/mod.rs", "stuart-core/src/process/iter.rs", "stuart-core/src/functions/parsers/*.rs: execute"]}
{"id": "C21", "title": "A loop visits the selected items in order", "statement": "A `for` loop with items visits exactly: the items, sorted stably by the sort key when one is given (ascending by code points, missing or non-string keys as the empty string), reversed for `desc`, with the first `skip` dropped and at most `limit` kept.", "quantifier": "every list of items, key, order, skip and limit", "why_tests_cant": "stability and boundary values over all lists", "anchors": ["stuart-core/src/functions/parsers/for.rs: execute"]}
{"id": "C22", "title": "A loop over nothing prints nothing", "statement": "A `for` loop whose selection is empty (empty array or directory, limit=0, skip past the end) produces no output and processing continues after its `end(for)`.", "quantifier": "every body", "why_tests_cant": "requires the body to be skipped for every body", "anchors": ["stuart-core/src/functions/parsers/for.rs: execute"]}
{"id": "C23", "title": "A conditional selects exactly one branch", "statement": "A conditional whose condition is false prints nothing of its first branch and exactly its else branch, and processing continues after its own `end`, whatever blocks the branches contain.", "quantifier": "every pair of branches, any nesting", "why_tests_cant": "arbitrary nesting inside the branch not taken", "anchors": ["stuart-core/src/functions/parsers/if.rs: execute", "stuart-core/src/functions/parsers/ifdefined.rs: execute"]}
{"id": "C24", "title": "Comparison functions mean what they say", "statement": "ifeq/ifne/ifgt/ifge/iflt/ifle take the branch exactly when the two integers compare that way; ifeq/ifne decide string equality; ordering comparisons of non-integers are false.", "quantifier": "every pair of operands", "why_tests_cant": "the boundary case of each operator must be right for every integer", "anchors": ["stuart-core/src/functions/mod.rs: if_parsers!, Input::partial_cmp, Input::eq", "stuart-core/src/functions/parsers/if.rs"]}
{"id": "C25", "title": "ifdefined means defined and not null", "statement": "`ifdefined($v)` takes its first branch exactly when looking `$v` up succeeds with a non-null value.", "quantifier": "every scope, value and path", "why_tests_cant": "all scopes", "anchors": ["stuart-core/src/functions/parsers/ifdefined.rs: execute"]}
{"id": "C26", "title": "insert yields the page's first section of that name, byte for byte", "statement": "`insert(\"s\")` appends exactly the bytes recorded by the first closed section named s; if there is none the build of the page fails with `undefined section`.", "quantifier": "every history of sections", "why_tests_cant": "all histories", "anchors": ["stuart-core/src/functions/parsers/insert.rs: execute", "stuart-core/src/functions/parsers/end.rs: execute"]}
{"id": "C27", "title": "Unclosed blocks are errors", "statement": "A page, a markdown template, a markdown body or a root template in which a block is still open at its end makes the build fail; no partial output is produced.", "quantifier": "every template", "why_tests_cant": "quantifies over all templates", "anchors": ["stuart-core/src/process/mod.rs: process_html, process_markdown, preprocess_markdown"]}
{"id": "C28", "title": "end closes only its own kind of block", "statement": "`end(x)` succeeds only when the innermost open block was opened by function x (or, for `end(\"l\")`, by begin(\"l\")); otherwise processing fails with `end without begin`; `else()` succeeds only directly inside a conditional.", "quantifier": "every stack of open blocks", "why_tests_cant": "all stacks", "anchors": ["stuart-core/src/functions/parsers/end.rs: execute", "stuart-core/src/functions/parsers/else.rs: execute"]}
{"id": "C29", "title": "excerpt is a prefix of the text without tags, with an ellipsis exactly when something was cut", "statement": "`excerpt($v, n)` prints a prefix of v with its `<...>` tags removed, as long as possible while stopping as soon as n bytes are reached, followed by `...` if and only if part of v was left unread.", "quantifier": "every string and length", "why_tests_cant": "all strings (multi-byte characters included) and lengths", "anchors": ["stuart-core/src/functions/parsers/excerpt.rs: execute"]}
{"id": "C30", "title": "timetoread is words/200 rounded down, at least 1", "statement": "`timetoread($v)` prints the decimal representation of max(1, floor(words/200)), words being the number of maximal runs of non-whitespace.", "quantifier": "every string", "why_tests_cant": "all strings", "anchors": ["stuart-core/src/functions/parsers/timetoread.rs: execute"]}
{"id": "C31", "title": "Processing is total", "statement": "Processing any token list with any site whose markdown bodies have been rendered terminates and ends in success or a located error, never in a panic (built-in functions and well-behaved plugins); the same holds for whole pages.", "quantifier": "every token list, not only properly nested ones, every scope and site", "why_tests_cant": "includes loops that rewind; termination and absence of stack underflow over all token lists", "anchors": ["stuart-core/src/process/mod.rs", "stuart-core/src/process/iter.rs", "stuart-core/src/functions/parsers/*.rs: execute"]}
{"id": "C32", "title": "Rendered output is valid UTF-8", "statement": "Whatever is rendered by built-in functions is a concatenation of UTF-8 encodings; in particular the UTF-8 check after markdown preprocessing never fails. Every file with extension html in the output of a successful build is valid UTF-8, whatever bytes the content directory holds, as long as plugins and the environment provide valid text.", "quantifier": "every token list and scope; every content directory, environment and set of plugins that work with text", "why_tests_cant": "all templates and data", "anchors": ["stuart-core/src/process/mod.rs: preprocess_markdown", "stuart-core/src/functions/parsers/*.rs: execute", "stuart-core/src/lib.rs:126-168"]}
{"id": "C33", "title": "Errors are located at the tag that caused them", "statement": "Every error produced while processing a token list carries the path, line and column of a tag of that list.", "quantifier": "every token list and scope", "why_tests_cant": "all failing executions", "anchors": ["stuart-core/src/process/mod.rs", "stuart-core/src/parse/mod.rs: LocatableToken::traceback", "stuart-core/src/functions/parsers/*.rs: execute"]}
{"id": "C34", "title": "The output tree mirrors the input tree", "statement": "A successful build maps directories to directories of the same name with the same number and order of children, markdown files x.md to x.html, and every other file to a file of the same name; files that are not templates, pages or plugin-handled keep their bytes unchanged.", "quantifier": "every content tree", "why_tests_cant": "trees of any shape and depth", "anchors": ["stuart-core/src/lib.rs: Stuart::build_node", "stuart-core/src/process/mod.rs: Node::process"]}
{"id": "C35", "title": "Pages use the nearest root template", "statement": "Every page is rendered with the root.html (and md.html) of the closest enclosing directory that has one, independent of the order in which directory entries are listed; with none on the path to the content root, the build fails with the missing-root error for that page.", "quantifier": "every content tree, every page, every listing order", "why_tests_cant": "arbitrary depth and listing order", "anchors": ["stuart-core/src/lib.rs: Environment::update_from_children, Stuart::build_node", "stuart-core/src/process/mod.rs: process_html, process_markdown"]}
{"id": "C36", "title": "Building never panics", "statement": "Building any content directory terminates and returns success or an error.", "quantifier": "every content directory", "why_tests_cant": "one bad combination of files is enough", "anchors": ["stuart-core/src/lib.rs: Stuart::build", "stuart-core/src/parse/markdown.rs: ParsedMarkdown::to_value", "stuart-core/src/process/mod.rs: preprocess_markdown"]}
{"id": "C37", "title": "Templates can only read files inside the content directory", "statement": "A path used by `import` or `for` resolves only to a node of the content tree; absolute paths and paths containing `..` never resolve, and `.` components, repeated and trailing slashes are ignored.", "quantifier": "every path string, every tree", "why_tests_cant": "all path spellings", "anchors": ["stuart-core/src/fs/mod.rs: Node::get_at_path", "stuart-core/src/functions/parsers/import.rs: execute", "stuart-core/src/functions/parsers/for.rs: execute"]}
{"id": "C38", "title": "Merging is a conflict-free union", "statement": "Merging a tree of static files into the output succeeds exactly when no path is a file in one tree and present in the other; then every file of either tree is at the same path with the same bytes and nothing else is there; otherwise it reports a conflict naming the two sources.", "quantifier": "every pair of trees", "why_tests_cant": "trees of any shape", "anchors": ["stuart-core/src/fs/mod.rs: Node::merge", "stuart-core/src/lib.rs: Stuart::merge_output"]}
{"id": "C39", "title": "The saved directory is exactly the output tree", "statement": "After a successful save the output directory contains exactly the files of the output tree (without root.html/md.html and, unless enabled, *.json), x.html becoming x/index.html when extensions are stripped, with their bytes; nothing stale is left; where two files would have the same path the later one in the tree is there (see C40).", "quantifier": "every output tree, configuration and previous disk state", "why_tests_cant": "all trees and previous states", "anchors": ["stuart-core/src/fs/mod.rs: Node::save, Node::save_recur"]}
{"id": "C40", "title": "No two outputs silently overwrite each other", "statement": "If two files of the output tree would be saved to the same path, the build fails instead of dropping one of them.", "quantifier": "every output tree", "why_tests_cant": "needs all pairs of colliding names (a.md/a.html, foo.html/foo/index.html)", "anchors": ["stuart-core/src/fs/mod.rs: Node::save_recur, Node::merge"]}
{"id": "C41", "title": "Static files are published unchanged", "statement": "After a successful build every file of the static directory is in the output directory at the same relative path with the same bytes.", "quantifier": "every static tree and configuration", "why_tests_cant": "depends on the file name", "anchors": ["stuart-core/src/fs/mod.rs: Node::save_recur", "stuart/src/build.rs: StuartContext::build"]}
{"id": "C42", "title": "Saving touches only the output directory, at every failure point", "statement": "Whatever filesystem operation of a save fails or is interrupted, everything outside the output directory is unchanged.", "quantifier": "every output tree, disk state and failure point", "why_tests_cant": "crash points", "anchors": ["stuart-core/src/fs/mod.rs: Node::save, Node::save_recur"]}
{"id": "C43", "title": "A failed build leaves the published site alone", "statement": "If loading, parsing, processing or merging fails, the output directory and the metadata file are unchanged.", "quantifier": "every project state and failure", "why_tests_cant": "every failure point before saving", "anchors": ["stuart/src/build.rs: StuartContext::build", "stuart-core/src/lib.rs: Stuart::build"]}
{"id": "C44", "title": "A build never deletes sources", "statement": "Whatever output directory is given, a build leaves content, static, scripts and the manifest as they were.", "quantifier": "every project and output argument", "why_tests_cant": "depends on the command line argument", "anchors": ["stuart/src/build.rs: StuartContext::build", "stuart-core/src/fs/mod.rs: Node::save"]}
{"id": "C45", "title": "Builds do not depend on earlier builds", "statement": "In a process that builds repeatedly (dev, bench), the result of a build depends only on the current content, configuration and environment, not on earlier builds, merges or failures.", "quantifier": "every history of operations on a builder", "why_tests_cant": "all histories", "anchors": ["stuart-core/src/lib.rs: Stuart::build, merge_output", "stuart/src/main.rs: bench"]}
{"id": "C46", "title": "Nothing is saved before a successful build", "statement": "On a builder that has not yet built successfully, save, save_metadata and merge_output fail with NotBuilt (or MetadataNotEnabled when metadata is off) and write nothing.", "quantifier": "every history of operations", "why_tests_cant": "all histories", "anchors": ["stuart-core/src/lib.rs: Stuart::save, save_metadata, merge_output"]}
{"id": "C47", "title": "Metadata mirrors the output tree", "statement": "The saved metadata lists, for every directory and file of the output tree in order, its name and kind, with the front matter of markdown files and the value of JSON files.", "quantifier": "every output tree", "why_tests_cant": "trees of any shape", "anchors": ["stuart-core/src/fs/mod.rs: save_metadata, save_metadata_recur", "stuart-core/src/parse/contents.rs: to_json"]}
{"id": "C48", "title": "Configuration defaults", "statement": "Each setting of the manifest is used when present and takes its documented default when absent, independently of the others; name and author are taken over.", "quantifier": "every manifest", "why_tests_cant": "all combinations", "anchors": ["stuart/src/config/mod.rs: From<RawConfig> for Config", "stuart-core/src/config.rs: Config::default"]}
{"id": "C49", "title": "Build scripts gate the build", "statement": "Pre-build scripts run before anything else and post-build scripts after everything has been saved, each group in directory order; the first script that fails stops the build with its exit code, and a failing pre-build script leaves the project directory as the scripts left it.", "quantifier": "every scripts directory and every script behaviour", "why_tests_cant": "all script outcomes", "anchors": ["stuart/src/scripts.rs: Scripts", "stuart/src/build.rs: StuartContext::build"]}
{"id": "C50", "title": "Every change triggers a rebuild in dev mode", "statement": "In `stuart dev`, after the last change to a source file has been delivered the published site is eventually rebuilt from the final state of the sources.", "quantifier": "every interleaving of edits, events and builds", "why_tests_cant": "schedules", "anchors": ["stuart/src/serve/mod.rs: build_watcher"]}
{"id": "C51", "title": "Dev mode does not trigger itself", "statement": "Files written by a build never cause another rebuild.", "quantifier": "every output directory argument and configuration", "why_tests_cant": "depends on arguments and event timing", "anchors": ["stuart/src/serve/mod.rs: build_watcher"]}
{"id": "C52", "title": "Exactly the dead browser connections are dropped", "statement": "After a reload broadcast the connections kept are exactly those to which sending succeeded, none is lost or duplicated.", "quantifier": "every list of connections and every set of failures", "why_tests_cant": "index arithmetic with swap_remove over all failure patterns", "anchors": ["stuart/src/serve/mod.rs: build_watcher"]}
{"id": "C53", "title": "The dev server only inserts its script", "statement": "A served file is the file on disk, with the reload script inserted right before the first `</body>` when there is one and unchanged otherwise.", "quantifier": "every file content", "why_tests_cant": "all contents", "anchors": ["stuart/src/serve/mod.rs: serve_dir"]}
{"id": "C54", "title": "Plugin sources are tried in order", "statement": "Each dependency is loaded from the first of its `;`-separated sources that is supported and loads; if none does the whole load fails.", "quantifier": "every dependency table and outcome of the loads", "why_tests_cant": "all outcome patterns", "anchors": ["stuart/src/plugins/mod.rs: load"]}
{"id": "C55", "title": "clean removes only generated files", "statement": "`stuart clean` run outside a project changes nothing; inside one it removes exactly dist, _build and metadata.json.", "quantifier": "every working directory state", "why_tests_cant": "all directory states", "anchors": ["stuart/src/main.rs: clean"]}
{"id": "C56", "title": "JavaScript values convert back and forth", "statement": "Passing a JSON value to a JavaScript plugin and back yields the same value.", "quantifier": "every JSON value", "why_tests_cant": "all JSON trees", "anchors": ["stuart/src/plugins/js/json.rs: json_to_js, js_to_json"]}
{"id": "C57", "title": "Plugin functions work inside conditionals", "statement": "A plugin function behaves the same inside a conditional block as outside. A function written in JavaScript sees the variables in scope and its arguments, prints what it returns and binds what it sets, wherever it stands and whatever it is called; only where the interpreter asks for its name can this make a difference.", "quantifier": "every plugin function and conditional", "why_tests_cant": "all contexts", "anchors": ["stuart/src/plugins/js/mod.rs: JSFunction::name", "stuart-core/src/functions/parsers/if.rs: execute"]}
{"id": "C58", "title": "Error reports show the offending line", "statement": "The source preview printed with a located error is the line of the file with that number; errors with no line (0) are printed without preview.", "quantifier": "every file and location", "why_tests_cant": "all files and locations", "anchors": ["stuart/src/error.rs: TracebackError::display"]}
{"id": "C59", "title": "Variables set by JavaScript can be read", "statement": "After a JavaScript plugin has set a variable, reading it gives the value that was set, in the plugin and in the template up to the end of the block. A variable that was never set reads as undefined.", "quantifier": "every name, value and surrounding scope", "why_tests_cant": "all names, values and existing bindings", "anchors": ["stuart/src/plugins/js/context.rs: set_variable, get_variable"]}
{"id": "C60", "title": "Parse errors point at the first malformed tag", "statement": "A parse error names the file being parsed. Everything before it is raw text and complete tags, up to opening braces that do not start a complete tag; the reported line and column are those of the last character read of that tag when the mistake was found: the character before its name for an unknown function, the end of the bad argument, the end of a rejected call, the unexpected character, or the end of the file when the tag is not finished.", "quantifier": "every template text that does not parse, every set of plugins", "why_tests_cant": "the position must be right after any text and any earlier tags, for each kind of mistake", "anchors": ["stuart-core/src/parse/parser.rs: Parser::traceback, Parser::expect", "stuart-core/src/parse/mod.rs: parse_html, parse_function, parse_variable"]}
{"id": "C61", "title": "A built page has the bytes its sources describe", "statement": "After a successful build, the file of a page in the output directory has exactly these bytes: what root.html of the closest enclosing directory prints, with its insertions replaced by the sections recorded while printing the page (or, for a markdown file, while printing the closest md.html with $self standing for the post). What a template prints follows its blocks: text, variables with fields, imported JSON files, sections, loops over markdown directories, JSON files and arrays with their options, conditionals, dates, excerpts, reading times, and calls of plugin functions that print and bind something according to the variables they see; `ifle` compares as `iflt` does (C24), and a short excerpt of a non-ASCII text gets its dots (C29). Other files are copied. Excluded: loops over nothing (C22), blocks inside a branch not taken (C23), files that share their place with another one (C40), plugin functions without a name directly in a conditional (C57).", "quantifier": "every content directory, host library behaviour, environment, mode and project state", "why_tests_cant": "any nesting of blocks, any depth of directories and any data", "anchors": ["stuart-core/src/lib.rs: Stuart::build", "stuart-core/src/process/mod.rs", "stuart-core/src/fs/mod.rs: Node::save", "stuart/src/build.rs: StuartContext::build"]}
{"id": "C62", "title": "A site in order builds, and the output directory holds exactly its pages", "statement": "Call a site in order when every file of the content directory describes a page (as in C61), its templates are well formed and its JSON files are valid. Then the build neither fails nor panics nor loops, and the files of the result are the described pages: all of them and nothing else. On the disk, take a project whose names stay inside the output directory and whose pages, static files and temporary files do not share names or places. It may have scripts: what the build reads is what the scripts before it leave. Then `stuart build` succeeds and the files of the output directory are exactly the described pages at their places (with the extension stripped when so configured, without templates, without data files unless configured) and the static and temporary files at theirs, whatever the directory held before; the temporary directory is gone, the metadata is written when asked for, and the scripts that run after the build find this disk.", "quantifier": "every content directory in order, host library behaviour, environment, mode, project and previous disk", "why_tests_cant": "totality over all sites, and the absence of any other file, cannot be sampled", "anchors": ["stuart-core/src/lib.rs: Stuart::build", "stuart-core/src/fs/mod.rs: Node::save", "stuart/src/build.rs: StuartContext::build"]}
{"id": "C63", "title": "stuart new makes a project that builds, and touches nothing else", "statement": "`stuart new <name>` makes a directory that did not exist, holding exactly the manifest, content/index.html, content/root.html, static/lightning.png and static/style.css of the built-in template, and unless --no-git is given .gitignore and what `git init` makes; nothing outside that directory changes, whatever fails. A name that is taken or lies in a directory that does not exist is refused and nothing changes. The manifest is TOML that gives the name and, if git knows it, the author. The new project builds at once, and the output is the welcome page and the two static files.", "quantifier": "every name, current directory, disk, git user, failing call, machine and build mode", "why_tests_cant": "any name, any previous disk and any point of failure; that the manifest is readable depends on the characters of the name", "anchors": ["stuart/src/new.rs: new, extract", "stuart/src/config/git.rs", "stuart/tests/basic"]}
{"id": "C64", "title": "The marker of an error report is under the mistake", "statement": "The report of an error in a file shows the line of the file the mistake is in, and its marker ^^^ covers the place of the mistake: for a parse error the last character read when it was found, for an error of a tag the position just before the tag's content.", "quantifier": "every text whose carriage returns all belong to line ends, every parse error and every tag in it, every file name, message and help text, every build mode", "why_tests_cant": "the counting of lines and columns by the parser, its lag behind the characters read, and the indexing of lines by the printer have to agree on every text", "anchors": ["stuart/src/error.rs: TracebackError::display", "stuart-core/src/parse/parser.rs: Parser::location, Parser::next", "stuart-core/src/parse/markdown.rs: parse_markdown"]}
{"id": "C65", "title": "JavaScript functions get their arguments as written and print what they return", "statement": "A tag calling a JavaScript function passes its positional arguments in order: quoted text as a string, an integer as a number, a variable as its value. If one of them is an undefined variable or a bare word, the tag fails there, with the error for the first such argument, and the function is not called. Otherwise what the function returns is printed as text, and nothing is printed if it returns undefined; the variables it sets are added to the current scope. Named arguments are ignored.", "quantifier": "every function, argument list, scope and position", "why_tests_cant": "any JavaScript function may be called with any arguments in any scope", "anchors": ["stuart/src/plugins/js/mod.rs: JSFunctionParser::parse, JSFunction::execute", "stuart/src/plugins/js/json.rs: json_to_js"]}
{"id": "C66", "title": "The site depends on nothing but its sources, and building again changes nothing", "statement": "Two successful builds of the same content, static and temp directories with the same manifest, plugins and mode produce the same files with the same contents below the output directory, whatever was on the disk before, wherever the output directory is, and whatever was built earlier in the process. Sources that are in error give the same error. Building a project a second time, in the same process or a new one, succeeds and leaves every path of the disk as the first build left it.", "quantifier": "every project, disk, earlier build and output directory", "why_tests_cant": "a test builds a few projects on clean disks; the claim is about every pair of disks and histories", "anchors": ["stuart/src/build.rs: StuartContext::build", "stuart-core/src/lib.rs: Stuart::build", "stuart-core/src/fs/mod.rs: Node::save, Node::merge"]}
{"id": "C67", "title": "stuart bench builds n times and leaves the site of one build", "statement": "stuart bench with n iterations builds the project n times in benchmark mode, one build after the other with the same context, and stops at the first build that fails, with its error. If the number is not a valid count nothing is built. For a project that builds, without scripts that change things and without a temp directory, any positive number of iterations succeeds and leaves the disk as a single build would. (As found: true of plugins that keep no state; a JavaScript plugin that counts its calls counts on from one iteration to the next.)", "quantifier": "every project, number of iterations and fault", "why_tests_cant": "any number of iterations over any project, with faults in any of them", "anchors": ["stuart/src/main.rs: bench", "stuart/src/build.rs: StuartContext::build"]}
{"id": "C68", "title": "Loading plugins touches only _build, and local sources are used as they are", "statement": "Loading the plugins of a manifest changes nothing outside the _build directory of the project and the local plugin projects that it builds, at whatever point it fails, as long as git and cargo stay in the directories they are given. A source that is a file or a cargo project in reach of the project is used as it is: neither git nor the network is asked, and for a file the disk does not change. A downloaded plugin is kept under _build/plugins/<name>/ under the last part of its address, and what is loaded is exactly what was downloaded. A source that loads gives one plugin.", "quantifier": "every manifest, disk, fault, and answer of git, cargo and the network", "why_tests_cant": "it depends on the network, git, cargo and every fault on the way; tests cannot enumerate the answers", "anchors": ["stuart/src/plugins/mod.rs: load_from_source, DynamicPluginManager::load", "stuart/src/plugins/source.rs: download_plugin"]}
{"id": "C69", "title": "Plugins given as source code are found, built and loaded", "statement": "A plugin from a repository is cloned the first time and pulled afterwards; it is built from a directory of the repository, at any depth, whose manifest is for the package with the name of the dependency, and found if there is such a directory. A project that cargo builds successfully is loaded, and loading never panics.", "quantifier": "every repository, directory tree, package name and disk", "why_tests_cant": "any repository layout and any package name", "anchors": ["stuart/src/plugins/source.rs: find_cargo_project, build_cargo_project, get_project_name", "stuart/src/plugins/mod.rs: load_from_source"]}
{"id": "C70", "title": "The order in which plugins are loaded does not matter, and adding a plugin does not change a site that built", "statement": "The dependency table is a hash map, so plugins arrive in an arbitrary order. If no two of them provide a function callable under the same name or read files of the same extension (names of built-in functions and the extensions html, md and json do not count: plugins cannot provide them), the build ends with the same result and the same disk whatever the order, also when it fails and at every injected fault. Adding a plugin without file readers to a project that built leaves everything as it was, provided no plugin after it provides the same function. When two plugins provide a function of the same name the order does decide what the page says.", "quantifier": "all projects, disks, fault positions, lists of plugins and all permutations of them", "why_tests_cant": "A test sees one order of the hash map and one set of plugins; the claim is about all orders, all plugin behaviours and all templates calling them.", "anchors": ["stuart/src/plugins/mod.rs:49-118", "stuart-core/src/parse/mod.rs:246-277", "stuart-core/src/fs/mod.rs:228-245"]}
{"id": "C71", "title": "A qualified name calls the function of the plugin it names", "statement": "A call of plugin::name in a template is a call of the function name of the first loaded plugin called plugin, whatever other plugins provide under the same short name and wherever they stand, if no function has a colon in its own name. A function whose own name is b::hi in another plugin takes the place of the function hi of plugin b.", "quantifier": "all lists of plugins, all functions, arguments and ways of writing the call", "why_tests_cant": "Tests exercise particular plugin names; that no two spellings of qualified names coincide is a fact about all texts.", "anchors": ["stuart-core/src/parse/mod.rs:256-270"]}
{"id": "C72", "title": "Editing a file changes only what it gives, and for a template what is below it", "statement": "Take two successful builds of content directories that have the same directories, the same markdown files and the same JSON files. If a file is in both with the same bytes, and the files called root.html and md.html of its directory and the directories around it are the same, then both sites contain the same output for it: the same name, the same bytes. In particular, editing one file that is neither markdown nor JSON leaves what every other file gives as it was, except that editing root.html or md.html may also change what the files of that directory and of those below it give. (As found: true of plugins that keep no state; pages that call JavaScript functions with state share that state.)", "quantifier": "for all pairs of content directories, files, templates, plugins, environment variables and build modes", "why_tests_cant": "It says that no page depends on a file it should not depend on, through templates, loops, imports or rendered markdown; a test can only compare the pages of a few sites after a few edits.", "anchors": ["stuart-core/src/lib.rs:131-275", "stuart-core/src/process/mod.rs:54-270", "stuart-core/src/functions/parsers/for.rs:132-254", "stuart-core/src/functions/parsers/import.rs:49-90", "stuart-core/src/fs/mod.rs:165-258"]}
{"id": "C73", "title": "A site does not depend on the order in which the file system lists directories", "statement": "The order in which read_dir returns the entries of a directory is arbitrary. If every loop over a directory in a template sorts by a key of the front matter in which the markdown files of that directory differ, then for any two listings of the same content directory (reordered at any depth) the build succeeds with one if and only if it succeeds with the other, and both give the same tree up to the order of entries; if no two outputs have the same path, saving the two leaves the same files and directories. Without sorting it is false: a loop visits the files as they are listed, so the page changes; and if a.html and a.md compete for the same page, the one listed last is published.", "quantifier": "for all content directories, all permutations of the entries at every depth, all templates, plugins, environment variables and build modes", "why_tests_cant": "A test runs on one file system, whose listing order is fixed; the claim is about all listing orders, so that a site built on another machine is the same.", "anchors": ["stuart-core/src/fs/mod.rs:165-192", "stuart-core/src/functions/parsers/for.rs:132-254", "stuart-core/src/lib.rs:208-275", "stuart-core/src/fs/mod.rs:300-372"]}
{"id": "C74", "title": "Which texts are templates, exactly", "statement": "A text is accepted as a template exactly when it is written as a small grammar says: raw text in which no unescaped pair of opening braces occurs, alternating with tags; a tag is a variable, or a call of a known function with arguments separated by commas, blanks around them, positional arguments before named ones, and an empty place between two commas being no argument. The tokens obtained are those of the grammar, and a text has at most one meaning; whatever is not so written is rejected.", "quantifier": "for all texts, all tables of plugin functions and all classes of non-ASCII letters", "why_tests_cant": "It is an equality between the infinite set of accepted texts and a grammar; tests check members of the set one by one and cannot show that nothing else is accepted.", "anchors": ["stuart-core/src/parse/mod.rs:94-278", "stuart-core/src/parse/parser.rs:86-160", "stuart-core/src/parse/function.rs:35-72"]}
{"id": "C75", "title": "Every sequence of raw text and tags can be written", "statement": "For every sequence of raw texts and well-formed tags there is a template that is read as that sequence, so that escaping lets a page contain any text next to any tag. (As found: a text ending in a backslash cannot be followed by a tag; every other sequence can be written.)", "quantifier": "for all sequences of raw texts and well-formed tags and all final raw texts", "why_tests_cant": "That no template at all is read in a given way is a statement about all texts; and that every other sequence can be written is a statement about all sequences.", "anchors": ["stuart-core/src/parse/parser.rs:86-146", "stuart-core/src/parse/mod.rs:94-149"]}
{"id": "C76", "title": "Exit status, reports and log level agree", "statement": "A command exits with status 0 exactly when it reports no error; with status 1 it reports exactly one error, as the last thing it writes. The log level changes neither the effect on the disk nor the status nor the errors shown, and with -q nothing but errors is written. (As found: a plugin source that fails before another one loads is reported as an error although the status is 0; `bench -q` still shows its progress bar; -v writes nothing more than the default level.)", "quantifier": "for all commands (build, new, bench, clean), log levels, disks, manifests, plugin loaders, scripts and failures of the file system", "why_tests_cant": "The status and what is written depend on every way a command can fail, at every step; tests run the commands on a few projects and do not look at the terminal.", "anchors": ["stuart/src/main.rs:113-222", "stuart/src/logger/mod.rs:24-85", "stuart/src/logger/progress.rs:28-71", "stuart/src/plugins/mod.rs:50-118", "stuart/src/build.rs:41-191"]}
{"id": "C77", "title": "build, clean and new from the command line", "statement": "For a project in order, `stuart build` exits with 0 and the output directory contains exactly the files of the site, wherever the manifest and the output directory are. `stuart clean` after a successful build restores the disk as it was before. `stuart new` followed by `stuart build` and `stuart clean` in the new directory succeeds. A build without plugins and scripts that fails, other than in a write, changes nothing on the disk.", "quantifier": "for all projects, working directories, manifest and output arguments, and machines without failing writes", "why_tests_cant": "It relates the arguments given by the user to every file on the disk before and after several commands, for every project.", "anchors": ["stuart/src/main.rs:145-222", "stuart/src/build.rs:41-191", "stuart/src/new.rs:19-67", "stuart-core/src/fs/mod.rs:250-384"]}
{"id": "C78", "title": "Scripts are told where the project is", "statement": "Every script of a build or a benchmark is started with STUART_MANIFEST_PATH, STUART_MANIFEST_DIR, STUART_TEMP_DIR and STUART_OUT_DIR set to absolute paths of exactly the manifest that was read, its directory, the directory merged into the output, and the directory the site is saved to, and with STUART_ENV set to the mode; nothing else of the script environment depends on the command line.", "quantifier": "for all working directories, manifest and output arguments (relative, absolute, with . and ..), scripts and disks", "why_tests_cant": "The paths are joined and printed by different code than the one that opens them; that they agree for all arguments is not visible in any one run.", "anchors": ["stuart/src/build.rs:68-106", "stuart/src/scripts.rs:40-125", "stuart/src/main.rs:145-187"]}
{"id": "C79", "title": "An error report tells which error, in which file, and what to do", "statement": "From the text of an error report one can tell the file, the line, the column and the kind of error with the name it is about: two different errors never print the same report. Where the program has advice for an error, the report ends with it. (As found: true of errors with a place in a file and of conflicts, including the two end-of-file errors whose messages coincide; the report of a file that cannot be read or is not text names no file, and the advice written for file system errors and for missing metadata is never shown.)", "quantifier": "for all errors, paths, working directories and disk contents", "why_tests_cant": "It compares all pairs of reports; the ambiguity of a format (paths with colons, names with quotes) is only excluded by a proof about all of them.", "anchors": ["stuart/src/error.rs:31-393", "stuart-core/src/error.rs:6-118"]}
{"id": "C80", "title": "A JavaScript plugin provides the functions it lists", "statement": "A JavaScript plugin that loads has the name and version of its default export and provides exactly the functions the export lists, in order, each called by its own name and running its own code; an export without a name, a version or a list of functions, or with an entry that is not a named function, is refused with an error instead of loading.", "quantifier": "for every module text, every default export, every number of functions and every call of them", "why_tests_cant": "The export is an arbitrary JavaScript value, and what goes wrong with an odd one (equal names, missing code, an object for an array) shows only when a page calls the function.", "anchors": ["stuart/src/plugins/js/mod.rs:46-155", "stuart/src/plugins/js/mod.rs:157-221", "stuart/src/plugins/mod.rs:210-251"]}
{"id": "C81", "title": "The plugins that come with Stuart change only what they are for", "statement": "With the image optimisation plugin a site builds exactly if it builds without it and each of its files with the extension png is optimised without an error; the two sites then differ only in the bytes of these files (and in metadata that says they were processed). If a file cannot be optimised the build fails with the message of the optimiser. The demo function, called by demo() or demo::demo(), prints its paragraph, changes nothing else and accepts no arguments.", "quantifier": "for every content directory, every optimiser, every list of other plugins that do not read PNG files, every position of the plugin in that list, and every scope", "why_tests_cant": "That nothing else changes is a statement about all sites, pages and other plugins; tests see single sites.", "anchors": ["plugins/imgopt/src/lib.rs:9-41", "plugins/demo/src/function.rs:6-37", "stuart-core/src/fs/mod.rs:226-245", "stuart-core/src/process/mod.rs:54-85"]}
{"id": "C82", "title": "The development server shows the site that was built", "statement": "After a successful build and save, `stuart dev` answers a request for the address of every file of the output with that file (200, the content type of its extension, with the reload script before the first `</body>` and otherwise byte for byte); the address of a directory, with its final slash, with the directory's index.html; the same address without the slash with a permanent redirection to it; and every other address of plain names with 404. Whatever address is asked for, a 200 answer only ever shows a file of the output directory.", "quantifier": "all output trees, all saves that succeed (whatever was on the disk before), all addresses made of plain names, all extension-to-type tables, and all file finders that keep the contract of humphrey's try_find_path", "why_tests_cant": "The output tree and the address are unbounded; tests request a handful of addresses of one site.", "anchors": ["stuart/src/serve/mod.rs:150-200", "stuart-core/src/fs/mod.rs:201-300"]}
{"id": "C83", "title": "Sources load exactly when every file is in order, and otherwise the first bad file is reported", "statement": "A content directory is loaded exactly when every file in it, at any depth, is in order: templates are UTF-8 text with a meaning under the template grammar, markdown files are UTF-8 text with well-formed front matter and a body that is a template, JSON files are valid JSON, files of a plugin's extension are accepted by the first plugin that names it, and nothing is unreadable; all other files are accepted whatever they contain. If some file is not in order the build stops before rendering anything, keeps the builder as it was, and gives the error of the first such file in listing order: with its path, and for templates the kind and place of the first malformed tag, for front matter the line.", "quantifier": "all directories, all plugins, all JSON parsers, all builder states", "why_tests_cant": "Files of every kind, in any number and at any depth, with any content, can be the one that decides; tests use a few fixture directories.", "anchors": ["stuart-core/src/fs/mod.rs:52-75", "stuart-core/src/fs/mod.rs:165-258", "stuart-core/src/lib.rs:126-168"]}
{"id": "C84", "title": "Every failed build blames a file of the sources, at the right place", "statement": "When a build fails there are three possibilities. There is no content directory, and the error names its path. Or a file cannot be read, and the error is that of the first such file in listing order. Or a file that was read fails to render, and then the error is one of these: the error of a tag that stands in this file, in a root.html of its directory or of one around it, or (for markdown) in such an md.html, with the path of the file the tag stands in and the line and column of the tag, and only with a kind of error that this tag can cause; an unclosed block, with the path of the page; a missing root.html or md.html, with the path of the page, and then every file of that name in a directory around the page is hidden by a directory of that name that is closer; or the message of a plugin that was handed the file. No other error occurs, and none refers to a file that does not exist.", "quantifier": "all content directories, plugins, environments, builder states and executions that end in an error", "why_tests_cant": "An error can come from any tag of any of the files involved in any page; tests check a few messages and cannot show that no other message is ever given.", "anchors": ["stuart-core/src/lib.rs:126-230", "stuart-core/src/process/mod.rs:60-300", "stuart-core/src/error.rs:1-118"]}
{"id": "C85", "title": "A project gives the same site wherever it is put", "statement": "Building the same content directory at another path gives the same result. Both builds succeed or both fail. If they succeed, the outputs have the same files with the same bytes and the same metadata, so saving either one does exactly the same to any disk; the path shows only in the recorded source paths. If they fail, the errors are of the same kind, at the same line and column, and their paths differ only by the path of the content directory. This holds with every plugin that does not itself look at paths, among them all JavaScript functions and the plugins that come with Stuart. The same holds for whole projects with scripts that do the same to the copy: after stuart build in the one place and in the other, with anything else on the two disks, the project directories are the same, with output, metadata file and all, the exit status is the same, and the messages differ at most in the paths of errors; also when the disk fails in the middle.", "quantifier": "all content directories, all pairs of paths, all environments, all builder states, all plugins that ignore paths", "why_tests_cant": "Any tag in any file could depend on the path; tests build each fixture at one path.", "anchors": ["stuart-core/src/lib.rs:126-168", "stuart-core/src/fs/mod.rs:52-258", "stuart-core/src/process/mod.rs:52-338", "stuart/src/build.rs:41-191", "stuart/src/main.rs:113-153"]}
{"id": "C86", "title": "A site depends only on the environment variables it mentions", "statement": "If the variables that some tag of the sources reads as `$env.NAME` (or a field of it) are bound to the same values, or unbound, in two environments, then building in either gives the same result: the same output tree byte for byte, or the same error. All other environment variables, and the mode (development or production) unless `$env.STUART_ENV` is read, make no difference. Tags that use `$env` as a whole do not make the site depend on the other variables either. The same holds for the build of a whole project with its scripts: the disk afterwards, the result and the messages are the same.", "quantifier": "all content directories, all pairs of environments and modes, all builder states, all plugins that do not look at the other variables", "why_tests_cant": "The environment is unbounded and every tag could read it; tests run in one environment.", "anchors": ["stuart-core/src/lib.rs:138-151", "stuart-core/src/process/mod.rs:286-361", "stuart-core/src/process/stack.rs:40-67", "stuart-core/src/functions/mod.rs:100-109", "stuart/src/build.rs:124-191"]}
{"id": "C87", "title": "A command that cannot do its work says why, and changes nothing it need not", "statement": "If the manifest is missing, not a readable text file, or not valid, `stuart build` and `stuart bench` write exactly one report, which says which of these is the case, leave the disk as it is and exit with 1. For an invalid manifest the report gives the line and column counted from one and shows that line of the manifest. If a plugin does not load or the number of iterations is no number, the last report says so. `stuart clean` outside a project says so; otherwise it fails exactly if something with one of the generated names is of the wrong kind or cannot be removed, names the first such thing in its report, has removed the ones before it and leaves everything else (in particular a directory called `metadata.json` or a file called `dist`) as it was.", "quantifier": "all disks, manifests, manifest parsers, plugin loaders, arguments, log levels, faults of the file system", "why_tests_cant": "The combinations of missing, malformed and wrong-kind files and of failing calls are unbounded, and tests do not make calls fail.", "anchors": ["stuart/src/build.rs:41-121", "stuart/src/main.rs:156-165", "stuart/src/main.rs:203-221", "stuart/src/error.rs:84-168"]}
{"id": "C88", "title": "A page depends only on the files it asks for", "statement": "A page depends on its own file, the templates of its directory and the directories around it, and the files named by `import` and `for` in them, where naming a directory means its markdown files and what those name in turn. Two successful builds of content directories that agree on these give the same page. In particular adding, removing or editing one file, of any kind, leaves the page of every other file as it was unless that page names the file, names the directory of which it is a markdown file, or has it as a template: a new post changes the pages that list the posts and no others. (As found: true of plugins that keep no state; pages that call JavaScript functions with state share that state.)", "quantifier": "all content directories, plugins, hosts, settings, environments, and changes of one file", "why_tests_cant": "Which files a page reads is decided by tags in the page, its templates and, through them, in other files; the changes to a site are unbounded.", "anchors": ["stuart-core/src/functions/parsers/for.rs:134-200", "stuart-core/src/functions/parsers/import.rs:49-90", "stuart-core/src/fs/mod.rs:143-165", "stuart-core/src/process/mod.rs:54-275", "stuart-core/src/lib.rs:126-276"]}
{"id": "C89", "title": "Renaming variables in templates leaves the site as it was", "statement": "The names of the variables in a template are the author's choice. If the variables of HTML files are renamed, each file by its own one-to-one renaming that leaves `env` and `self` alone, also inside `for`, `sortby`, `import`, `ifdefined`, comparisons and the other functions, then the build succeeds exactly when it did before, and every page has the same bytes in the same place. The templates that surround pages may be renamed too where no plugin provides functions or kinds of files.", "quantifier": "all content directories, all renamings of all their HTML files, plugins, hosts, settings, and environments", "why_tests_cant": "The claim compares two builds for every template and every injective renaming; frames are named after variables, and blocks are closed by comparing the starts of those names, so a clash could appear for names no test uses.", "anchors": ["stuart-core/src/process/stack.rs:7-67", "stuart-core/src/functions/parsers/for.rs:134-240", "stuart-core/src/functions/parsers/import.rs:49-90", "stuart-core/src/functions/parsers/ifdefined.rs:30-75", "stuart-core/src/functions/parsers/end.rs:40-81", "stuart-core/src/process/mod.rs:54-275"]}
{"id": "C90", "title": "A site builds exactly when it is in order", "statement": "Take a site whose templates are made of properly nested blocks with no loop inside another loop, whose plugins add functions that leave the blocks around them alone, print and bind texts, and fail or not whatever line they stand on; JavaScript functions that return texts are such functions. The build succeeds if, and only if, the site is in order in the sense of C62: every page and layout is well formed, every file named by a loop or an import exists and has the right kind, every variable printed has a text as its value, every loop has something to visit, no block stands in a branch not taken, every plugin function called succeeds and those called directly in a conditional have a name, every insertion has its section, every page has its layouts, and every JSON file is valid. When it succeeds its files are exactly the pages the sources describe: nothing is silently left out, made up or rendered in another way. So the description of pages in C61 and C62 is complete for these sites, not only sound. The same holds of a whole project on the disk: no build that fails half-way can have succeeded for a site not in order, whatever the disk does, and if the disk does nothing wrong the project builds exactly when its site is in order. With scripts, it is the site they prepare that has to be in order. This includes the run of the command itself: for a project without scripts, `stuart build` with its manifest, plugins, static and temporary directory and metadata file ends with success exactly when the manifest and its plugins can be read and the site is in order.", "quantifier": "all sites of that form, plugins, hosts, environments, modes, projects, disks and disk faults", "why_tests_cant": "That there is no further way to succeed concerns every site; a test can only show that some wrong site fails.", "anchors": ["stuart-core/src/lib.rs: Stuart::build", "stuart-core/src/process/mod.rs:54-275", "stuart-core/src/functions/parsers/for.rs:134-240", "stuart-core/src/functions/parsers/end.rs:40-81", "stuart/src/build.rs:110-190"]}
{"id": "C91", "title": "Templates may be rewritten with blocks that print the same", "statement": "Take two sites that differ only in their HTML files, and in these only by blocks, at any depth, that have been replaced by others which print the same, bind the same variables and record the same sections wherever they stand. Or a template as a whole has been replaced by one that prints and records the same, whatever it binds. Then the one can be built if, and only if, the other can, and the published files are the same, byte for byte. Such blocks are: a conditional without and with an empty else branch; ifeq and ifne with their branches exchanged; equalities, and ifgt and iflt, with their operands exchanged; a loop over a directory or a JSON file, and two loops of which the first has a limit and the second skips that many values, provided there are more; a loop with skip=0 or with a limit it does not reach, and the same without; two conditionals in a row with the same condition, and one with the contents of both, provided the first holds no import and no plugin function; an import in front of blocks that do not use the variable, call no plugin function and are no imports, and the same import behind them.", "quantifier": "all sites, hosts, plugins, environments, modes, replaced blocks at any depth and in any number of files", "why_tests_cant": "That a replacement is safe wherever it is made is a statement about all templates around it and all data.", "anchors": ["stuart-core/src/process/mod.rs:54-275", "stuart-core/src/functions/parsers/for.rs:134-240", "stuart-core/src/functions/parsers/if.rs", "stuart-core/src/functions/parsers/else.rs", "stuart-core/src/functions/parsers/end.rs:40-81"]}
{"id": "C92", "title": "The development server shows what a restart would show", "statement": "After every change that stuart dev reacts to, the disk, the fate of the process and the messages are those of a stuart dev started anew at that moment, whatever has happened since it was started and whichever builds have failed; open pages are told to reload exactly when no error is reported. A project in order is published exactly as described by C61 at the start and after each such change. Errors of a site never end the server.", "quantifier": "all projects, plugins, hosts, disks, faults, verbosity levels, and all sequences of changes and events", "why_tests_cant": "The state of the server depends on the whole history of edits and builds, of which there are infinitely many.", "anchors": ["stuart/src/serve/mod.rs:40-146", "stuart/src/serve/mod.rs:203-209", "stuart/src/build.rs:41-191"]}
{"id": "C93", "title": "The metadata file lists the files of the project, all of them and nothing else", "statement": "After a successful build with save_metadata set and no plugin that parses files, metadata.json holds the name and the author of the site and, directory by directory, one entry for every file and directory of the content directory, of the static directory and of what the pre-build scripts left in the temporary directory. A directory is listed with its entries; a markdown file under the name of its page, with its front matter; a JSON file with its value; any other file, layouts included, by its name alone. Nothing else is listed. The same holds for a whole run of stuart build. It holds whatever failed on the way, as long as the build reports success.", "quantifier": "all projects, contents, scripts, faults, hosts, environments and previous disks", "why_tests_cant": "The entries depend on the whole tree of sources; a test looks at a few files.", "anchors": ["stuart-core/src/lib.rs:190-205", "stuart-core/src/fs/mod.rs:284-290", "stuart-core/src/fs/mod.rs:386-423", "stuart/src/build.rs:151-185"]}
{"id": "C94", "title": "What stuart dev shows is what stuart build publishes", "statement": "For a project whose scripts do the same in both modes and whose templates do not read $env.STUART_ENV, stuart dev and stuart build do the same. When the development server starts, and again whenever a source file has changed, the disk is left as stuart build would leave it on the same sources, the same messages are written, an error is reported exactly if stuart build would fail with it, and browsers are told to reload exactly if it would succeed. The server ends exactly if stuart build would panic or not end. (As found: true of plugins that keep no state; a JavaScript plugin with state remembers the builds before the change.)", "quantifier": "all projects whose scripts do the same in both modes, all contents that do not read the mode, all sequences of events before the change, all faults, hosts, environments and levels of logging", "why_tests_cant": "The server builds again and again with the same builder on a disk that holds earlier output; a test sees one project and one edit.", "anchors": ["stuart/src/serve/mod.rs:40-146", "stuart/src/main.rs:113-153", "stuart/src/build.rs:124-191", "stuart-core/src/lib.rs:138-151"]}
{"id": "C95", "title": "A build that was cut short is made good by the next one", "statement": "If a project builds, then it builds to the same site after any number of attempts that the disk let down, at whatever point: in the middle of a file, of a directory, of removing the old site, or of the metadata file. The build after them succeeds and leaves every path of the disk as the first, undisturbed build would have left it. The attempts may have been made by the same process or by others. More generally the result of a build does not depend on what is in the output directory and the metadata file before it. Needed is that the attempts left no file in place of the output directory, no directory in place of the metadata file and nothing under the name temp. (As found: true of plugins that keep no state; one with state remembers the failed attempts of its process.)", "quantifier": "all projects whose scripts do nothing, all contents, all sequences of failing builds, all failure points and what is left at them, all hosts and environments", "why_tests_cant": "A failure can happen at any system call and leave anything behind; tests do not fail the disk.", "anchors": ["stuart/src/build.rs:124-191", "stuart-core/src/fs/mod.rs:261-290", "stuart-core/src/fs/mod.rs:332-384", "stuart-core/src/lib.rs:171-205"]}
{"id": "C96", "title": "JavaScript plugins keep their state to themselves", "statement": "A function of a JavaScript plugin may keep state in its module, from one call to the next, from page to page and, in one process, from build to build. What a call prints, sets or fails with depends on its arguments, on the variables in scope, and on the calls of functions of the same plugin made before it, one after the other. It does not depend on what other plugins keep, nor do its calls change that; a site that uses some plugins is built the same whatever the others keep. Functions whose answers do not depend on state give the site that functions without state give, and native plugins keep nothing. All this holds of whole runs of the commands build, bench and dev too; a build that fails does not undo what its calls have kept.", "quantifier": "all modules and functions with whatever they keep, all sites, all sequences of builds in one process, all hosts and environments", "why_tests_cant": "The two tests of plugins call six functions of one module and a counter of two modules, on one page; state, sites and histories are unbounded.", "anchors": ["stuart/src/plugins/js/mod.rs:39-137", "stuart/src/plugins/js/mod.rs:156-221", "stuart-core/src/process/mod.rs", "stuart-core/src/lib.rs"]}
{"id": "C97", "title": "After a change of one file, only what depends on it can break", "statement": "A site builds. Then one file of the content directory is added, removed or edited, and the build fails. The error is then that of reading this very file, or that of a page that depends on it: the page made from it, a page below its directory if it is a template, or a page that asks for it, or for its directory if it is a post, by its own tags, those of its templates or those of the posts it lists. If no other file depends on it, the error is its own. And if it was removed, or is a file that is only copied, or a data file that can be read, and nothing depends on it, the site still builds.", "quantifier": "all sites that build, all changes of one file at any depth, all hosts and environments, and all plugins whose answers do not depend on state of their own", "why_tests_cant": "A test edits one file of one site and sees one error; that no other edit of any site can make an unrelated page fail is a statement about all pairs of sites.", "anchors": ["stuart-core/src/lib.rs:126-168", "stuart-core/src/fs/mod.rs", "stuart-core/src/process/mod.rs", "stuart-core/src/functions"]}
{"id": "C98", "title": "Settings change only what they are for", "statement": "Build one project twice, with the same files and two manifests that differ in the settings. Whether the site can be built, with which error, and the contents of all pages are the same whatever the settings. The name and the author of the project appear nowhere but in metadata.json. With save_metadata there is a metadata.json in addition and nothing else is different. strip_extensions moves each page from name.html to name/index.html, leaves index.html, other files and all static files where they are, and changes no contents; every file is there in both, provided no two of them are moved to the same place. Without save_data_files the .json files are left out of the output directory and nothing else is different.", "quantifier": "all projects, disks, plugins, settings, pre-build scripts and faults of the disk", "why_tests_cant": "A test compares two builds of one project; that a setting has no other effect is a statement about every file of every project under every pair of settings.", "anchors": ["stuart/src/config/mod.rs:47-71", "stuart-core/src/lib.rs:126-205", "stuart-core/src/fs/mod.rs:261-384", "stuart/src/build.rs:124-191"]}
{"id": "C99", "title": "Where a page is and what it is called does not matter to what is in it", "statement": "Two files with the same bytes and the same ending give pages with the same bytes, wherever they are in the site and whatever they are called, if the templates in force for them are the same: for root.html and for md.html, the closest one is the same file or has the same bytes, or there is none for either. This holds for two files of one site, and for a file that is moved or renamed between two builds, whatever else changes, as long as the files it asks for stay as they are. Neither is itself a template. Plugins are to be ones that do not look at where they are used; functions written in JavaScript and the two plugins that come with the program do not.", "quantifier": "all sites, pairs of files and builds, and all plugins that do not look at where they are used", "why_tests_cant": "A test copies one page to one other place; that nothing of the place or the name gets into a page is a statement about all tags, templates and posts a page may use.", "anchors": ["stuart-core/src/process/mod.rs:52-330", "stuart-core/src/fs/mod.rs:100-260", "stuart-core/src/lib.rs:126-205"]}
{"id": "C100", "title": "The way lines end in the sources changes the way lines end in the site only", "statement": "Take a site and the same site with other line ends: in any of its text files, any line feed replaced by a carriage return and a line feed, or the other way round. Both or neither can be built, and if they can, every page and file of the one is that of the other, with the same name and metadata, up to the way lines end. If only markdown files differ, the result is the very same to the byte, errors included, with any plugins. For the first part: no tag of a page or template has a text argument that goes over the end of a line, a text with a carriage return elsewhere than at the end of a line is left alone, the JSON library reads the data files alike, files read by plugins are left alone, and plugin functions do not look at the line ends in what is written around them; functions written in JavaScript and the two plugins that come with the program do not.", "quantifier": "all sites, all choices of line ends for every single line, all builds", "why_tests_cant": "A test converts one site in one way; that no tag, front matter, loop, template or plugin call reacts to any mixture of line ends is a statement about all texts of the template language.", "anchors": ["stuart-core/src/parse/markdown.rs:25-100", "stuart-core/src/parse/mod.rs:60-278", "stuart-core/src/process/mod.rs:52-340"]}
{"id": "C101", "title": "The order of the sections of a page does not matter, nor does the text around them", "statement": "Take a site and another one that differs in its pages and post templates only, and in these only in the order of sections and in the text outside all sections: sections have changed places with others, and text before, between and after them has been added, taken away or changed, also in the loops and conditionals around sections. Both or neither can be built, and if they can, the published files are the same, byte for byte, in memory and on the disk: what a page shows is decided by the layout that inserts its sections, not by the page. Two sections may change places if neither records, at any depth, a section that the other records or inserts. Plugin functions must not look at the sections recorded so far; those written in JavaScript and those of the two plugins that come with the program do not.", "quantifier": "all sites made of properly nested blocks, all layouts, all exchanges of sections in any number of files, all plugins of that kind", "why_tests_cant": "A test swaps two sections of one page; that no tag inside or after them, at any depth of loops and conditionals, and no tag of any layout can tell the difference is a statement about all templates.", "anchors": ["stuart-core/src/functions/parsers/begin.rs:1-52", "stuart-core/src/functions/parsers/end.rs:1-81", "stuart-core/src/functions/parsers/insert.rs:1-58", "stuart-core/src/process/mod.rs:88-230"]}
{"id": "C102", "title": "What was run in a project before does not matter to a build", "statement": "Take a project that stuart build builds. Run any commands in it: stuart build, stuart bench with any number, stuart clean, sessions of stuart dev ended at any moment, in any order, with other environment variables, dates and log levels, and with the disk failing at any point of any of them. Unless a failure has left a file in place of the output directory or a directory in place of the metadata file, stuart build then succeeds and leaves every path of the disk as in a fresh copy of the project. Nothing but dist and metadata.json has been changed by all these commands. If the fresh copy has an error in a page, stuart build reports the same error after them and changes nothing. More generally, two copies of a project in which different things were generated build to the same site.", "quantifier": "all projects without scripts and temp directory, with plugins from local files, all finite sequences of commands and sessions with all their results and failures", "why_tests_cant": "Tests run a command on a prepared directory; that no sequence of commands, whatever fails in it, leaves anything behind that a later build could see is an induction over all histories and all points of failure.", "anchors": ["stuart/src/main.rs:113-221", "stuart/src/build.rs:41-191", "stuart/src/serve/mod.rs:40-146", "stuart-core/src/fs/mod.rs:261-384"]}
{"id": "C103", "title": "The way tags are written does not matter", "statement": "Rewrite the tags of the HTML files of a site, pages and templates, without changing what they say: other white space in them, commas with nothing between them, numbers with other signs and leading zeros, the options of a loop in another order (order given at most once). Then the site builds exactly when it did before. What comes out is the same, byte for byte, and so is all that is written to disk, the metadata file too, even if the disk fails on the way. If every call in the site denotes a function, a build that fails fails in the same file with an error of the same kind; only line and column may be others. This holds for functions written in JavaScript, for the plugins that come with the program, and for all plugins that do not look at lines and columns. In a project without scripts the whole stuart build command exits with status 0 in both cases or in none, and everything on the disk afterwards is the same, but for the files that were rewritten.", "quantifier": "all content directories and all ways of writing the tags of their HTML files, all settings, plugins, environments and results of the libraries", "why_tests_cant": "Tests compare a few spellings of a tag; that none of the unboundedly many ways of writing a template changes any site it is part of is a simulation between two builds for all token sequences and trees.", "anchors": ["stuart-core/src/parse/mod.rs:94-278", "stuart-core/src/functions/parsers/for.rs:39-130", "stuart-core/src/process/mod.rs:54-338", "stuart-core/src/fs/mod.rs:332-384", "stuart/src/build.rs:41-192"]}
{"id": "C104", "title": "Only what data files and posts say matters, not how they are written", "statement": "Rewrite the JSON files of a site so that they have the same values (other white space, say), and its markdown files so that they have the same front matter and the same body (white space around keys and values, the number of dashes, LF or CRLF, no front matter instead of an empty one). Then a build ends in the same way, with the very same error if it fails, whatever the plugins. What comes out is the same but for the contents of the JSON files, and saving it, even if the disk fails on the way, leaves disks that differ in nothing but the contents of JSON files. If data files are not saved, what is written is the same byte for byte; the metadata file is the same in any case. In a project without scripts the whole stuart build command exits with the same status and reports the same error, and everything on the disk afterwards is the same, but for the contents of JSON files and of the posts that were rewritten; even if the disk fails on the way.", "quantifier": "all content directories and all ways of writing their data files and posts, all settings, plugins, environments, faults and results of the libraries", "why_tests_cant": "Tests rebuild a site with one data file reformatted; that no page, error, metadata or saved file can ever tell two spellings of the same data apart is a statement about pairs of builds of all sites.", "anchors": ["stuart-core/src/fs/mod.rs:195-258", "stuart-core/src/parse/markdown.rs:25-100", "stuart-core/src/process/mod.rs:54-338", "stuart-core/src/fs/mod.rs:261-384", "stuart/src/build.rs:41-192"]}
{"id": "C105", "title": "The order of fields in data files and front matter does not matter", "statement": "Reorder the fields of objects in the JSON files of a site, at any depth, and the lines of front matter of its posts (fields with distinct names; with repeated names, any change that leaves the first binding of every name). Provided that the functions of the plugins do not look at the order of fields, as those of the plugins that come with the program do not, a build ends in the same way, with the very same error if it fails. What comes out is the same but for the contents of the JSON files and the order of fields in the metadata, and saving it, even if the disk fails on the way, leaves disks that differ in nothing but contents of files named .json; if data files are not saved, the same site byte for byte. So does the whole command `stuart build` in a project without scripts: it ends in the same way with the same messages, and the disks it leaves differ only in the sources that were edited and in contents of files named .json.", "quantifier": "all content directories and all reorderings of the fields of their data files and posts, all settings, environments, faults and results of the libraries, all plugins whose functions give the same for values that differ in the order of fields", "why_tests_cant": "Tests check one file with its fields in one order; that no page, loop, sort, condition or error can ever depend on the order of fields is a statement about pairs of builds of all sites.", "anchors": ["stuart-core/src/process/stack.rs:39-67", "stuart-core/src/process/mod.rs:272-373", "stuart-core/src/functions/parsers/for.rs:150-254", "stuart-core/src/parse/markdown.rs:25-124"]}
{"id": "C106", "title": "Fields that nothing asks for do not matter", "statement": "Take the fields that some tag of a site asks for, reading or sorting by a variable with this name after a dot, and any that its plugins look at. Add, remove or change other fields, of objects at any depth in the JSON files and in the front matter of the posts. Then a build ends in the same way, with the very same error if it fails. What comes out is the same but for the contents of the JSON files and the values recorded in the metadata, and saving it, even if the disk fails on the way, leaves disks that differ in nothing but contents of files named .json; if data files are not saved, the same site byte for byte. So does the whole command `stuart build` in a project without scripts: the disks it leaves differ only in the sources that were edited and in contents of files named .json. The plugins that come with the program look at no field.", "quantifier": "all content directories and all changes of fields that are not asked for, all settings, environments, faults and results of the libraries, all plugins whose functions give the same for values that differ in other fields", "why_tests_cant": "Tests add one field to one file; that a new field, whatever its name, value and place, changes no page, loop, sort, condition or error of any site that does not mention it is a statement about pairs of builds of all sites.", "anchors": ["stuart-core/src/process/stack.rs:39-67", "stuart-core/src/process/mod.rs:272-373", "stuart-core/src/functions/parsers/for.rs:150-254", "stuart-core/src/parse/markdown.rs:25-124"]}
{"id": "C107", "title": "A data file may be imported once and looped over by its variable", "statement": "Put an import of a JSON file of the site at the top of some pages and layouts, with a variable that no tag of these is about and that is not env or self, and let some of the loops over that file, at any depth, be loops over the variable. No plugin function is called there. Then the site can be built if, and only if, it could before, and the published files are the same, byte for byte. So an import that nothing reads may be added or left out. The import may also stand at the beginning of a section, of the body of a loop with another variable, or of a branch of a conditional.", "quantifier": "all sites, hosts, environments, modes, data files, variables without a dot, numbers and depths of loops and files in which this is done", "why_tests_cant": "That importing first is the same as looping over the file, and that an import disturbs nothing that is not about its variable, is a statement about all templates around it and all data.", "anchors": ["stuart-core/src/functions/parsers/import.rs", "stuart-core/src/functions/parsers/for.rs:134-240", "stuart-core/src/process/mod.rs:54-215", "stuart-core/src/process/mod.rs:341-361", "stuart-core/src/process/stack.rs:39-67"]}
{"id": "C108", "title": "Sections may be renamed", "statement": "Give the sections of a site other names, different ones for different sections, in every begin, end and insert of its HTML files, layouts included, and let the plugin functions called there not depend on the sections, as those written in JavaScript do not. Then the site can be built if, and only if, it could before, and the published files are the same, byte for byte. Sections within markdown files are not concerned: they need not be renamed.", "quantifier": "all sites, hosts, environments, modes, renamings that can be undone, templates and depths at which sections are begun and inserted", "why_tests_cant": "That nothing depends on what a section is called, neither the name of the frame it is collected in nor the order in which sections are looked up, is a statement about all names and all templates.", "anchors": ["stuart-core/src/functions/parsers/begin.rs", "stuart-core/src/functions/parsers/end.rs", "stuart-core/src/functions/parsers/insert.rs", "stuart-core/src/process/mod.rs:54-215"]}
{"id": "C109", "title": "Sections nothing asks for may be left out", "statement": "Leave out, on the HTML pages of a site and in the templates md.html, sections that no HTML file of the site inserts, with all they contain, unless they stand within another section, of whose text they are a part, and let the plugin functions called there not depend on the sections, as those written in JavaScript do not. If the site could be built before it can be built now, and the published files are the same, byte for byte. The converse does not hold: what stands in such a section is evaluated all the same, and must be in order.", "quantifier": "all sites, hosts, environments, modes and sets of sections left out, also those within loops and conditionals", "why_tests_cant": "That nothing a section does, the variables it loads included, is felt outside of it is a statement about everything it can contain and about all layouts.", "anchors": ["stuart-core/src/functions/parsers/begin.rs", "stuart-core/src/functions/parsers/end.rs", "stuart-core/src/functions/parsers/insert.rs", "stuart-core/src/process/mod.rs:54-215"]}
