{
 "claims": [
  {
   "property": "C01",
   "status": "proved",
   "theorems": [
    "C01_plain_text"
   ],
   "note": ""
  },
  {
   "property": "C02",
   "status": "proved",
   "theorems": [
    "C02_escaping"
   ],
   "note": ""
  },
  {
   "property": "C03",
   "status": "proved",
   "theorems": [
    "C03_printed_templates"
   ],
   "note": ""
  },
  {
   "property": "C04",
   "status": "partial",
   "theorems": [
    "C04_exact_partial",
    "C04_reported_partial",
    "C04_total_refuted",
    "C04_total_partial"
   ],
   "note": "False of the code: `{{ f(\"` at the end of a file panics (RawArgument::parse unwraps None). Proved: the parser always ends; the texts that make it panic are exactly those of a small grammar (C04_exact_partial: behind tags that are in order, a call whose last argument is a lone quotation mark followed only by blanks); every other text that is not a template is reported as an error (C04_reported_partial)."
  },
  {
   "property": "C05",
   "status": "proved",
   "theorems": [
    "C05_token_lines",
    "C05_token_positions"
   ],
   "note": ""
  },
  {
   "property": "C06",
   "status": "partial",
   "theorems": [
    "C06_columns_refuted",
    "C06_columns_partial"
   ],
   "note": "False of the code: columns start at 1 on the first line and at 0 on all others. Proved: the exact column of every tag."
  },
  {
   "property": "C07",
   "status": "proved",
   "theorems": [
    "C07_well_formed"
   ],
   "note": ""
  },
  {
   "property": "C08",
   "status": "proved",
   "theorems": [
    "C08_argument_order"
   ],
   "note": ""
  },
  {
   "property": "C09",
   "status": "proved",
   "theorems": [
    "C09_builtins_win",
    "C09_first_plugin",
    "C09_unknown_function"
   ],
   "note": ""
  },
  {
   "property": "C10",
   "status": "proved",
   "theorems": [
    "C10_builtin_arguments"
   ],
   "note": ""
  },
  {
   "property": "C11",
   "status": "proved",
   "theorems": [
    "C11_front_matter",
    "C11_body_kept"
   ],
   "note": ""
  },
  {
   "property": "C12",
   "status": "proved",
   "theorems": [
    "C12_bad_line",
    "C12_unclosed",
    "C12_no_front",
    "C12_all_cases"
   ],
   "note": ""
  },
  {
   "property": "C13",
   "status": "partial",
   "theorems": [
    "C13_file_lines_refuted",
    "C13_body_lines_partial"
   ],
   "note": "Refuted as stated: lines of tags in a markdown body are counted from the start of the body, not of the file (C13_file_lines_refuted). Proved: the reported line is the file line minus the height of the front matter block, and the column is exact."
  },
  {
   "property": "C14",
   "status": "proved",
   "theorems": [
    "C14_lookup",
    "C14_undefined",
    "C14_every_name"
   ],
   "note": ""
  },
  {
   "property": "C15",
   "status": "proved",
   "theorems": [
    "C15_prints",
    "C15_refuses",
    "C15_undefined"
   ],
   "note": ""
  },
  {
   "property": "C16",
   "status": "proved",
   "theorems": [
    "C16_blocks",
    "C16_sections",
    "C16_visible"
   ],
   "note": ""
  },
  {
   "property": "C17",
   "status": "proved",
   "theorems": [
    "C17_immutable",
    "C17_import_new",
    "C17_import_again"
   ],
   "note": ""
  },
  {
   "property": "C18",
   "status": "partial",
   "theorems": [
    "C18_stuart_env_refuted",
    "C18_stuart_env_partial",
    "C18_exact_partial"
   ],
   "note": "Refuted: STUART_ENV is appended after the process environment and lookup takes the first match, so an inherited STUART_ENV wins. Exactly: wherever no other variable is called env, $env.STUART_ENV is the first STUART_ENV of the process environment followed by the mode (C18_exact_partial), so it is the mode when the process environment does not define it."
  },
  {
   "property": "C19",
   "status": "proved",
   "theorems": [
    "C19_root_scope",
    "C19_same_sections",
    "C19_base"
   ],
   "note": ""
  },
  {
   "property": "C20",
   "status": "partial",
   "theorems": [
    "C20_sound_partial",
    "C20_state_partial",
    "C20_block_structure_refuted",
    "C20_block_structure_partial"
   ],
   "note": "Refuted as stated: a loop with nothing to visit, and a branch that is not taken but contains blocks, do not follow the block structure (C20_block_structure_refuted; see C22, C23). Proved for every properly nested template in which neither situation arises during rendering (C20_block_structure_partial). A page with no loop inside a loop that renders at all prints exactly what its blocks say (C20_sound_partial). C20_state_partial is the same with plugin functions that keep state: the calls are made in the order of rendering."
  },
  {
   "property": "C21",
   "status": "proved",
   "theorems": [
    "C21_loop",
    "C21_order",
    "C21_byte_order"
   ],
   "note": ""
  },
  {
   "property": "C22",
   "status": "partial",
   "theorems": [
    "C22_silent_refuted",
    "C22_fails_partial",
    "C22_empty_loop_refuted",
    "C22_empty_loop_partial"
   ],
   "note": "False of the code: with nothing to visit the loop tag is skipped but its body is then processed once, and its end(for) fails. Proved: the loop tag itself prints and changes nothing. Such a page never renders if no loop is inside another (C22_fails_partial); with nested loops it may render and be wrong (C22_silent_refuted)."
  },
  {
   "property": "C23",
   "status": "partial",
   "theorems": [
    "C23_silent_refuted",
    "C23_fails_partial",
    "C23_branches_refuted",
    "C23_either_partial",
    "C23_alone_partial"
   ],
   "note": "False of the code when the branch not taken contains blocks: only tags at the height of the conditional are recognised, but skipped openers do not raise the height, so an inner end or else is taken for that of the conditional. Proved when the branch not taken contains no blocks (the taken branch may contain any). Without a loop inside a loop such a page never renders (C23_fails_partial); with nested loops it may render and be wrong (C23_silent_refuted)."
  },
  {
   "property": "C24",
   "status": "partial",
   "theorems": [
    "C24_ifle_refuted",
    "C24_comparisons_partial",
    "C24_ifle_partial",
    "C24_undefined"
   ],
   "note": "False of the code for ifle: it is instantiated with the strict comparison. Proved for the other five, and that ifle behaves as iflt."
  },
  {
   "property": "C25",
   "status": "proved",
   "theorems": [
    "C25_ifdefined"
   ],
   "note": ""
  },
  {
   "property": "C26",
   "status": "proved",
   "theorems": [
    "C26_insert",
    "C26_missing",
    "C26_first",
    "C26_recorded"
   ],
   "note": ""
  },
  {
   "property": "C27",
   "status": "partial",
   "theorems": [
    "C27_open_blocks_refuted",
    "C27_pages_partial",
    "C27_markdown_partial",
    "C27_no_end_partial"
   ],
   "note": "False of the code for root templates: the height of the stack is not checked after the root template, the output of the innermost open block is published. Proved for pages, markdown templates and markdown bodies."
  },
  {
   "property": "C28",
   "status": "proved",
   "theorems": [
    "C28_end",
    "C28_end_outside",
    "C28_else",
    "C28_wrong_end",
    "C28_wrong_else"
   ],
   "note": ""
  },
  {
   "property": "C29",
   "status": "partial",
   "theorems": [
    "C29_ellipsis_refuted",
    "C29_excerpt_partial",
    "C29_determined"
   ],
   "note": "The ellipsis part is false for texts with non-ASCII characters: characters read are compared with the length in bytes, so an uncut text can get an ellipsis. Proved: the printed text, ellipsis whenever something was cut, and no ellipsis on uncut ASCII texts."
  },
  {
   "property": "C30",
   "status": "proved",
   "theorems": [
    "C30_timetoread",
    "C30_words"
   ],
   "note": ""
  },
  {
   "property": "C31",
   "status": "proved",
   "theorems": [
    "C31_total",
    "C31_ready",
    "C31_pages"
   ],
   "note": ""
  },
  {
   "property": "C32",
   "status": "proved",
   "theorems": [
    "C32_build",
    "C32_utf8",
    "C32_pages",
    "C32_markdown",
    "C32_decoding",
    "C32_encoding"
   ],
   "note": ""
  },
  {
   "property": "C33",
   "status": "proved",
   "theorems": [
    "C33_located",
    "C33_pages"
   ],
   "note": ""
  },
  {
   "property": "C34",
   "status": "proved",
   "theorems": [
    "C34_mirrors",
    "C34_contents",
    "C34_loaded"
   ],
   "note": ""
  },
  {
   "property": "C35",
   "status": "proved",
   "theorems": [
    "C35_nearest",
    "C35_order",
    "C35_distinct",
    "C35_missing",
    "C35_missing_error",
    "C35_blame"
   ],
   "note": ""
  },
  {
   "property": "C36",
   "status": "partial",
   "theorems": [
    "C36_total_refuted",
    "C36_quote_refuted",
    "C36_total_partial",
    "C36_breaking",
    "C36_first"
   ],
   "note": "Refuted: a for loop over a directory of markdown files inside a markdown body panics (the HTML of the other files is not there yet), and so does a template ending in a call with a lone quotation mark. Proved: without these two and with plugin functions that do not panic, every build of every directory ends with success or an error (C36_total_partial); a directory with a file on which the parser breaks down never builds (C36_breaking), and panics if that is the first bad file (C36_first). Missing: which of the loops in markdown bodies are reached."
  },
  {
   "property": "C37",
   "status": "proved",
   "theorems": [
    "C37_resolves",
    "C37_inside",
    "C37_absolute",
    "C37_parent",
    "C37_import",
    "C37_for"
   ],
   "note": ""
  },
  {
   "property": "C38",
   "status": "proved",
   "theorems": [
    "C38_succeeds",
    "C38_union",
    "C38_distinct",
    "C38_conflict"
   ],
   "note": "For trees in which no directory has two entries of the same name."
  },
  {
   "property": "C39",
   "status": "proved",
   "theorems": [
    "C39_exactly",
    "C39_covers",
    "C39_succeeds"
   ],
   "note": "p is the directory passed to save. Where two files have the same target the later one stays (C40)."
  },
  {
   "property": "C40",
   "status": "partial",
   "theorems": [
    "C40_no_overwrite_refuted",
    "C40_same_name_refuted",
    "C40_no_overwrite_partial"
   ],
   "note": "Refuted: foo.html and foo/index.html, or a.html and a.md, are saved to the same path and the build succeeds with one of them lost. Partial: with distinct targets every file is saved. Missing: detection of collisions (the code has none when saving)."
  },
  {
   "property": "C41",
   "status": "partial",
   "theorems": [
    "C41_static_refuted",
    "C41_static_partial"
   ],
   "note": "Refuted: static *.json files (unless save_data_files) and static files called root.html or md.html are not published. Partial: any other static file is published with its bytes unless another output has the same target."
  },
  {
   "property": "C42",
   "status": "partial",
   "theorems": [
    "C42_outside_refuted",
    "C42_outside_partial",
    "C42_tame_partial"
   ],
   "note": "Refuted: a page called ...html (or ...md) is written to index.html beside the output directory. Partial: trees whose names stay inside (tame), at every failure point; all trees built from projects without such names and without plugin parsers are tame."
  },
  {
   "property": "C43",
   "status": "proved",
   "theorems": [
    "C43_failed",
    "C43_error",
    "C43_panic"
   ],
   "note": "Unchanged with respect to the disk the pre-build scripts left."
  },
  {
   "property": "C44",
   "status": "partial",
   "theorems": [
    "C44_sources_refuted",
    "C44_sources_partial",
    "C44_output_dir"
   ],
   "note": "Refuted: --output . removes the project. Partial: every path that is not in the output directory, temp or metadata.json is unchanged, whatever fails, if the scripts leave it alone and no file is called ...html or ...md."
  },
  {
   "property": "C45",
   "status": "partial",
   "theorems": [
    "C45_state_partial",
    "C45_state_refuted",
    "C45_fresh_partial"
   ],
   "note": "Refuted as stated (C45_state_refuted): a JavaScript plugin that keeps a counter makes the second build of the same content different, because the module stays loaded. Proved: with plugins that keep nothing a builder with any history builds what a fresh one builds (C45_fresh_partial); with plugins that keep state the builder's own history still has no effect, only what the plugins keep (C45_state_partial)."
  },
  {
   "property": "C46",
   "status": "proved",
   "theorems": [
    "C46_not_built",
    "C46_built"
   ],
   "note": ""
  },
  {
   "property": "C47",
   "status": "proved",
   "theorems": [
    "C47_recorded",
    "C47_described",
    "C47_describable",
    "C47_saved"
   ],
   "note": ""
  },
  {
   "property": "C48",
   "status": "proved",
   "theorems": [
    "C48_settings"
   ],
   "note": ""
  },
  {
   "property": "C49",
   "status": "proved",
   "theorems": [
    "C49_found",
    "C49_none",
    "C49_pre",
    "C49_failures",
    "C49_success"
   ],
   "note": ""
  },
  {
   "property": "C50",
   "status": "partial",
   "theorems": [
    "C50_drained_refuted",
    "C50_first_refuted",
    "C50_name_refuted",
    "C50_rebuilt_partial",
    "C50_late_partial",
    "C50_latest_partial",
    "C50_first_partial",
    "C50_progress_partial",
    "C50_terminates_partial",
    "C50_live_taken",
    "C50_live_given",
    "C50_live_partial",
    "C50_live_broken_partial",
    "C50_live_noticed",
    "C50_live_progress",
    "C50_live_rests_partial",
    "C50_live_refuted"
   ],
   "note": "Refuted three ways: a change made during a build whose event arrives before its end is drained (also as a run of the program on a real disk, C50_live_refuted); a change during the first build has no event; files called stuart.toml are passed over wherever they are. Partial: if the last change is made between builds, or none is made, the site published once all is quiet is that of the sources; on a real disk, the whole disk is as stuart build would leave it and browsers have been told, or the error of stuart build has been reported (C50_live_partial, C50_live_broken_partial); progress and termination without further changes. Executions with the channel correspond both ways to the sequences of events of C92 and C94. Missing: last changes made while a build runs; changes of manifest, plugins or scripts."
  },
  {
   "property": "C51",
   "status": "partial",
   "theorems": [
    "C51_endless",
    "C51_metadata_refuted",
    "C51_output_refuted",
    "C51_paths_partial",
    "C51_passed_partial",
    "C51_never_partial",
    "C51_count_partial",
    "C51_live_never_partial",
    "C51_live_count_partial",
    "C51_live_refuted",
    "C51_script_refuted"
   ],
   "note": "Refuted: with save_metadata, or with an output directory other than dist inside the project, the events of a build can start another one for ever (C51_live_refuted: on a real disk, with the events its builds cause; C51_script_refuted: a script that writes a page does the same). Partial: with output dist, no metadata and no scripts, all events of a build are passed over, no build starts by itself and there are at most as many builds as changes, over abstract sources and on a real disk."
  },
  {
   "property": "C52",
   "status": "proved",
   "theorems": [
    "C52_kept"
   ],
   "note": ""
  },
  {
   "property": "C53",
   "status": "proved",
   "theorems": [
    "C53_unchanged",
    "C53_inserted"
   ],
   "note": ""
  },
  {
   "property": "C54",
   "status": "proved",
   "theorems": [
    "C54_loaded",
    "C54_stopped",
    "C54_total"
   ],
   "note": ""
  },
  {
   "property": "C55",
   "status": "proved",
   "theorems": [
    "C55_outside",
    "C55_only",
    "C55_all",
    "C55_succeeds"
   ],
   "note": ""
  },
  {
   "property": "C56",
   "status": "partial",
   "theorems": [
    "C56_duplicate_refuted",
    "C56_proto_refuted",
    "C56_order_refuted",
    "C56_same_partial",
    "C56_members_partial",
    "C56_exact_partial",
    "C56_back_partial",
    "C56_total"
   ],
   "note": "False for duplicate keys, __proto__ and integer keys (three _refuted). Proved: the exact value JavaScript sees and the exact value read back for every input (_exact, _back), equality for values in JavaScript's order (_same), equality up to order for values with different keys (_members), totality."
  },
  {
   "property": "C57",
   "status": "partial",
   "theorems": [
    "C57_js_refuted",
    "C57_inside_partial",
    "C57_fails_partial",
    "C57_skipped_partial",
    "C57_names_partial",
    "C57_only_names",
    "C57_acts",
    "C57_grows"
   ],
   "note": "False for every JavaScript function in every conditional (C57_js_refuted: panic). Proved for functions with a name (_partial: same output, same error, skipped when false), and names do not matter without conditionals."
  },
  {
   "property": "C58",
   "status": "partial",
   "theorems": [
    "C58_line0_refuted",
    "C58_preview",
    "C58_beyond",
    "C58_plain_partial"
   ],
   "note": "Refuted: with overflow checks (debug profile) printing an error at line 0 panics. Partial: everything else, including line 0 in release builds."
  },
  {
   "property": "C59",
   "status": "partial",
   "theorems": [
    "C59_again_refuted",
    "C59_dotted_refuted",
    "C59_nested_refuted",
    "C59_set_partial",
    "C59_undefined_partial",
    "C59_unset_partial"
   ],
   "note": "False when the current block already binds the name (first value stays), for dotted names, and a value with undefined inside stops the program (three _refuted); proved otherwise: the value is visible and read back as JSON prescribes, setting undefined changes nothing, and a name that was never set reads as undefined."
  },
  {
   "property": "C60",
   "status": "proved",
   "theorems": [
    "C60_parse_errors"
   ],
   "note": ""
  },
  {
   "property": "C61",
   "status": "proved",
   "theorems": [
    "C61_published",
    "C61_saved"
   ],
   "note": ""
  },
  {
   "property": "C62",
   "status": "proved",
   "theorems": [
    "C62_builds",
    "C62_files",
    "C62_project",
    "C62_scripted"
   ],
   "note": ""
  },
  {
   "property": "C63",
   "status": "partial",
   "theorems": [
    "C63_created",
    "C63_refuses",
    "C63_outside_partial",
    "C63_outside_refuted",
    "C63_manifest_partial",
    "C63_manifest_refuted",
    "C63_builds"
   ],
   "note": "Refuted two ways: with an absolute name git init runs in another directory (C63_outside_refuted); a quotation mark in the name makes the manifest unreadable (C63_manifest_refuted). Partial: containment at every failure point for relative names or --no-git, and the manifest for text that TOML does not want escaped. Creation, refusal and the first build are proved."
  },
  {
   "property": "C64",
   "status": "partial",
   "theorems": [
    "C64_markdown_refuted",
    "C64_parse_partial",
    "C64_tag_partial"
   ],
   "note": "False for markdown files with front matter: lines are counted from the body but looked up in the file (C64_markdown_refuted). Proved for templates: parse errors (C64_parse_partial) and tags (C64_tag_partial)."
  },
  {
   "property": "C65",
   "status": "proved",
   "theorems": [
    "C65_call",
    "C65_fault",
    "C65_cases"
   ],
   "note": ""
  },
  {
   "property": "C66",
   "status": "partial",
   "theorems": [
    "C66_sources",
    "C66_errors",
    "C66_again_partial",
    "C66_temp_refuted",
    "C66_state_refuted"
   ],
   "note": "False for projects with a temp directory: it is merged into the first site and removed, so the second site lacks it (C66_temp_refuted). Proved for all projects: same sources give the same site and the same errors (C66_sources, C66_errors); building again for projects without temp directory and with idle scripts (C66_again_partial). JavaScript plugins that keep state make a second build in the same process differ (C66_state_refuted); the other theorems are about plugins that keep none."
  },
  {
   "property": "C67",
   "status": "partial",
   "theorems": [
    "C67_runs",
    "C67_bad",
    "C67_same_partial",
    "C67_state_refuted"
   ],
   "note": "False of JavaScript plugins that keep state: n iterations may leave another site than one (C67_state_refuted). Proved of plugins that keep none."
  },
  {
   "property": "C68",
   "status": "partial",
   "theorems": [
    "C68_inside_partial",
    "C68_name_refuted",
    "C68_local",
    "C68_file",
    "C68_downloaded",
    "C68_one"
   ],
   "note": "False for dependency names that are not plain file names: `../../content` lets a download replace a page (C68_name_refuted). Proved for plain names at every fault (C68_inside_partial); the claims on local, downloaded and single plugins are proved."
  },
  {
   "property": "C69",
   "status": "partial",
   "theorems": [
    "C69_repository",
    "C69_found",
    "C69_built_partial",
    "C69_hyphen_refuted",
    "C69_panic_partial",
    "C69_panic_refuted"
   ],
   "note": "False twice: a package name with a hyphen is looked for under the wrong library name (C69_hyphen_refuted), and a buildable manifest without a package panics (C69_panic_refuted). Proved: search and repositories (C69_repository, C69_found), building for names without hyphens (C69_built_partial), and that there is no other panic (C69_panic_partial)."
  },
  {
   "property": "C70",
   "status": "partial",
   "theorems": [
    "C70_order_partial",
    "C70_order_refuted",
    "C70_added"
   ],
   "note": "Order invariance holds when no two plugins provide the same thing; refuted otherwise."
  },
  {
   "property": "C71",
   "status": "partial",
   "theorems": [
    "C71_qualified_partial",
    "C71_qualified_refuted"
   ],
   "note": "Holds for function names without colons; refuted otherwise."
  },
  {
   "property": "C72",
   "status": "partial",
   "theorems": [
    "C72_local_partial",
    "C72_edit_partial",
    "C72_state_refuted"
   ],
   "note": "Functions and node parsers of plugins are modelled as functions of what they are called with and the environment. Where JavaScript plugins keep state it is false: an edited page may make another page come out differently (C72_state_refuted)."
  },
  {
   "property": "C73",
   "status": "partial",
   "theorems": [
    "C73_order_refuted",
    "C73_order_partial",
    "C73_saved_refuted",
    "C73_saved_partial"
   ],
   "note": "False without sorted loops and when two sources give the same page (two refutations); true under those conditions for success, output tree and saved files. Which error is reported first, and the order inside metadata.json, depend on the listing."
  },
  {
   "property": "C74",
   "status": "proved",
   "theorems": [
    "C74_grammar",
    "C74_one_meaning",
    "C74_one_shape",
    "C74_canonical"
   ],
   "note": "Exact grammar of accepted templates, both directions."
  },
  {
   "property": "C75",
   "status": "partial",
   "theorems": [
    "C75_every_refuted",
    "C75_writable_partial"
   ],
   "note": "Refuted for raw text ending in a backslash before a tag; exact characterisation of the rest."
  },
  {
   "property": "C76",
   "status": "partial",
   "theorems": [
    "C76_status",
    "C76_level",
    "C76_verbose",
    "C76_quiet_partial",
    "C76_quiet_refuted",
    "C76_sources_partial",
    "C76_sources_refuted"
   ],
   "note": "Refuted twice: bench -q shows progress; a failed plugin source with a fallback is reported although the status is 0. The partial theorems cover everything else."
  },
  {
   "property": "C77",
   "status": "proved",
   "theorems": [
    "C77_build",
    "C77_undo",
    "C77_new",
    "C77_failed"
   ],
   "note": "Manifest reading is an oracle; C77_new assumes that it reads manifests of the written form."
  },
  {
   "property": "C78",
   "status": "proved",
   "theorems": [
    "C78_build",
    "C78_bench"
   ],
   "note": "Windows path prefixes are not modelled."
  },
  {
   "property": "C79",
   "status": "partial",
   "theorems": [
    "C79_identifies_partial",
    "C79_conflict",
    "C79_identifies_refuted",
    "C79_help_partial",
    "C79_help_refuted"
   ],
   "note": "False for errors without a place (unreadable files) and for advice on file system errors; proved for all located errors and conflicts."
  },
  {
   "property": "C80",
   "status": "partial",
   "theorems": [
    "C80_loads_partial",
    "C80_last_partial",
    "C80_dependency_partial",
    "C80_file_partial",
    "C80_functions_partial",
    "C80_entries_partial",
    "C80_duplicate_refuted",
    "C80_name_refuted",
    "C80_object_refuted",
    "C80_code_refuted",
    "C80_panic_refuted"
   ],
   "note": "False of the code: with two entries of one name both run the last (C80_duplicate_refuted, C80_last_partial), a plugin without name and version loads as \"undefined\" (C80_name_refuted), functions given as an object load as none (C80_object_refuted), an entry without code loads and panics when called (C80_code_refuted), a length that cannot be converted panics (C80_panic_refuted). Proved for proper exports with different names, for the refusal of files that are not modules, of exports without functions and of undefined or null entries, and for the number of functions."
  },
  {
   "property": "C81",
   "status": "proved",
   "theorems": [
    "C81_images",
    "C81_error",
    "C81_demo",
    "C81_demo_tag"
   ],
   "note": "The relation of the two output trees is exact in both directions. Files named .PNG and static files are not PNG files for the plugin."
  },
  {
   "property": "C82",
   "status": "proved",
   "theorems": [
    "C82_site",
    "C82_missing",
    "C82_inside"
   ],
   "note": "humphrey's try_find_path is an oracle with the contract `finds`; addresses are those of names without : % ? # and without two dots in a row"
  },
  {
   "property": "C83",
   "status": "proved",
   "theorems": [
    "C83_loads",
    "C83_built",
    "C83_first"
   ],
   "note": "The template grammar is that of C74, front matter that of C11/C12, the place of an error that of C60. JSON and plugin parsers are oracles. The order is that in which directories list their entries."
  },
  {
   "property": "C84",
   "status": "proved",
   "theorems": [
    "C84_blames"
   ],
   "note": "Line numbers in a markdown file are those in its body (see C13)."
  },
  {
   "property": "C85",
   "status": "proved",
   "theorems": [
    "C85_project",
    "C85_command",
    "C85_moved",
    "C85_js",
    "C85_shipped"
   ],
   "note": ""
  },
  {
   "property": "C86",
   "status": "proved",
   "theorems": [
    "C86_env",
    "C86_shipped",
    "C86_project"
   ],
   "note": ""
  },
  {
   "property": "C87",
   "status": "proved",
   "theorems": [
    "C87_manifest",
    "C87_cases",
    "C87_shown",
    "C87_plugins",
    "C87_iterations",
    "C87_clean",
    "C87_nowhere",
    "C87_cleaned"
   ],
   "note": ""
  },
  {
   "property": "C88",
   "status": "partial",
   "theorems": [
    "C88_page_partial",
    "C88_file_partial",
    "C88_state_refuted"
   ],
   "note": "False of JavaScript plugins that keep state, which pages share without naming it (C88_state_refuted). Proved of plugins that keep none."
  },
  {
   "property": "C89",
   "status": "proved",
   "theorems": [
    "C89_command",
    "C89_site"
   ],
   "note": ""
  },
  {
   "property": "C90",
   "status": "proved",
   "theorems": [
    "C90_exactly",
    "C90_pages",
    "C90_needed",
    "C90_project",
    "C90_js",
    "C90_scripted",
    "C90_command"
   ],
   "note": ""
  },
  {
   "property": "C91",
   "status": "proved",
   "theorems": [
    "C91_builds",
    "C91_pages",
    "C91_project",
    "C91_else",
    "C91_negate",
    "C91_turn",
    "C91_two_loops",
    "C91_skip",
    "C91_limit",
    "C91_move",
    "C91_command",
    "C91_join",
    "C91_join_else"
   ],
   "note": ""
  },
  {
   "property": "C92",
   "status": "partial",
   "theorems": [
    "C92_restarted_partial",
    "C92_passed",
    "C92_first",
    "C92_published_partial",
    "C92_errors",
    "C92_scripts_refuted",
    "C92_manifest_refuted",
    "C92_panic_refuted",
    "C92_state_refuted"
   ],
   "note": "Holds while the manifest, the plugins and the scripts stay as they were at the start, and unless a build panics; both are shown to be needed. JavaScript plugins that keep state also tell a running server from a new one (C92_state_refuted)."
  },
  {
   "property": "C93",
   "status": "proved",
   "theorems": [
    "C93_metadata",
    "C93_command"
   ],
   "note": ""
  },
  {
   "property": "C94",
   "status": "partial",
   "theorems": [
    "C94_first_partial",
    "C94_preview_partial",
    "C94_state_refuted"
   ],
   "note": "False of JavaScript plugins that keep state: they remember the builds before the change (C94_state_refuted). Proved of plugins that keep none."
  },
  {
   "property": "C95",
   "status": "partial",
   "theorems": [
    "C95_from_partial",
    "C95_recovers_partial",
    "C95_command_partial",
    "C95_state_refuted"
   ],
   "note": "False of JavaScript plugins that keep state if the failed attempts were made by the same process, as in stuart dev (C95_state_refuted). Proved of plugins that keep none."
  },
  {
   "property": "C96",
   "status": "proved",
   "theorems": [
    "C96_isolated",
    "C96_others",
    "C96_stateless",
    "C96_native",
    "C96_module",
    "C96_modules",
    "C96_calls",
    "C96_commands",
    "C96_programs",
    "C96_isolated_commands"
   ],
   "note": ""
  },
  {
   "property": "C97",
   "status": "proved",
   "theorems": [
    "C97_blame",
    "C97_own",
    "C97_safe"
   ],
   "note": "plugins without state, as everywhere outside State.v"
  },
  {
   "property": "C98",
   "status": "proved",
   "theorems": [
    "C98_build",
    "C98_titled",
    "C98_titled_meta",
    "C98_metadata",
    "C98_strip",
    "C98_data"
   ],
   "note": "both builds succeed in C98_strip and C98_data; scripts after the build do nothing"
  },
  {
   "property": "C99",
   "status": "proved",
   "theorems": [
    "C99_copies",
    "C99_moved",
    "C99_plugins"
   ],
   "note": "both builds succeed"
  },
  {
   "property": "C100",
   "status": "proved",
   "theorems": [
    "C100_builds",
    "C100_site",
    "C100_posts",
    "C100_plugins"
   ],
   "note": "conditions on text arguments over the end of a line, data files and plugins as in the statement"
  },
  {
   "property": "C101",
   "status": "proved",
   "theorems": [
    "C101_builds",
    "C101_pages",
    "C101_project",
    "C101_plugins",
    "C101_command"
   ],
   "note": "C101_builds for the sites of C90, C101_pages and C101_project for sites in order as in C62"
  },
  {
   "property": "C102",
   "status": "proved",
   "theorems": [
    "C102_same",
    "C102_copy",
    "C102_keeps",
    "C102_fails"
   ],
   "note": ""
  },
  {
   "property": "C103",
   "status": "proved",
   "theorems": [
    "C103_builds",
    "C103_site",
    "C103_saved",
    "C103_fails",
    "C103_means",
    "C103_plugins",
    "C103_command"
   ],
   "note": ""
  },
  {
   "property": "C104",
   "status": "proved",
   "theorems": [
    "C104_result",
    "C104_site",
    "C104_saved",
    "C104_hidden",
    "C104_command"
   ],
   "note": ""
  },
  {
   "property": "C105",
   "status": "proved",
   "theorems": [
    "C105_result",
    "C105_site",
    "C105_saved",
    "C105_metadata",
    "C105_command",
    "C105_permuted",
    "C105_front",
    "C105_plugins"
   ],
   "note": "For plugins whose functions do not look at the order of fields; those shipped with the program do not."
  },
  {
   "property": "C106",
   "status": "proved",
   "theorems": [
    "C106_result",
    "C106_site",
    "C106_saved",
    "C106_command",
    "C106_added",
    "C106_front",
    "C106_plugins"
   ],
   "note": "For plugins whose functions look at no other field; those shipped with the program look at none."
  },
  {
   "property": "C107",
   "status": "proved",
   "theorems": [
    "C107_builds",
    "C107_pages",
    "C107_project",
    "C107_section",
    "C107_loop",
    "C107_branch",
    "C107_command"
   ],
   "note": "For blocks without plugin calls, as a plugin function may read any variable."
  },
  {
   "property": "C108",
   "status": "proved",
   "theorems": [
    "C108_builds",
    "C108_pages",
    "C108_project",
    "C108_plugins",
    "C108_command"
   ],
   "note": "C108_builds for the sites of C90, C108_pages and C108_project for sites in order as in C62"
  },
  {
   "property": "C109",
   "status": "proved",
   "theorems": [
    "C109_builds",
    "C109_pages",
    "C109_project",
    "C109_command"
   ],
   "note": "C109_builds for the sites of C90, C109_pages and C109_project for sites in order as in C62; which plugin functions qualify is C101_plugins"
  }
 ]
}