{
 "claims": [
  {
   "property": "C01",
   "status": "proved",
   "theorems": [
    "C01_printer_loop_terminates",
    "C01_lookahead_loop_terminates",
    "C01_printing_yields_a_text"
   ],
   "note": "No infinite run of the printing loop or of the look-ahead loop from any state; a text is always produced."
  },
  {
   "property": "C02",
   "status": "proved",
   "theorems": [
    "C02_configuration_changes_only_white_space",
    "C02_texts_are_printed_verbatim"
   ],
   "note": "Same outcome for every pair of configurations with positive indent size, equal text once spaces and line feeds are deleted; the texts themselves are printed verbatim. White space is spaces and line feeds."
  },
  {
   "property": "C03",
   "status": "proved",
   "theorems": [
    "C03_no_comment_is_lost"
   ],
   "note": "For every tree with distinct node ids whose tokens and comments have no children (guarantees of tree-sitter and the grammar)."
  },
  {
   "property": "C04",
   "status": "proved",
   "theorems": [
    "C04_line_comment_ends_its_line"
   ],
   "note": "For every line comment of the tree; same hypotheses as C03."
  },
  {
   "property": "C05",
   "status": "partial",
   "theorems": [
    "C05_no_duplication_refuted",
    "C05_once_partial",
    "C05_characters_partial"
   ],
   "note": "Refuted: a comment before the type of a SOQL WITH clause is printed twice. Proved for the files of the grammar of SpecTokens.v with comments anywhere but at three places (simple_places: the type of a WITH clause, the fields of a RETURNING clause, the semicolons of a for statement without condition): the output is the tokens and comments of the source, each comment exactly once."
  },
  {
   "property": "C06",
   "status": "proved",
   "theorems": [
    "C06_every_comment_attached_once",
    "C06_attachments_are_the_comments",
    "C06_one_place",
    "C06_no_comment_elsewhere"
   ],
   "note": "The map holds exactly the comments below code nodes, each at one node and one place."
  },
  {
   "property": "C07",
   "status": "proved",
   "theorems": [
    "C07_attachment_rule",
    "C07_nothing_else_attached",
    "C07_collection_succeeds_iff"
   ],
   "note": "The rule is SpecTree.belongs."
  },
  {
   "property": "C08",
   "status": "proved",
   "theorems": [
    "C08_succeeds_iff_every_comment_emitted",
    "C08_emitted_comments_are_in_the_document"
   ],
   "note": "Exact condition for a text to be returned."
  },
  {
   "property": "C09",
   "status": "partial",
   "theorems": [
    "C09_comment_only_file_refuted"
   ],
   "note": "Refuted for every such file: a file with only comments never formats, because the root prints them without marking them."
  },
  {
   "property": "C10",
   "status": "proved",
   "theorems": [
    "C10_flat_line_within_width"
   ],
   "note": "For every reachable printer state at an undecided group; texts must carry their byte length and no line feed."
  },
  {
   "property": "C11",
   "status": "proved",
   "theorems": [
    "C11_group_broken_only_when_needed",
    "C11_whole_document_group"
   ],
   "note": "Exact decision at every reachable undecided group."
  },
  {
   "property": "C12",
   "status": "partial",
   "theorems": [
    "C12_run_of_breaks_prints_one",
    "C12_empty_line_prints_one_blank_line",
    "C12_breaks_across_group_start_refuted"
   ],
   "note": "Proved when nothing stands between the breaks; the full claim is refuted: a group starting between two hard breaks stops them from being merged and prints a blank line."
  },
  {
   "property": "C13",
   "status": "proved",
   "theorems": [
    "C13_indentation_is_depth_times_size",
    "C13_output_indentation"
   ],
   "note": "For documents and for the output of formatting a tree."
  },
  {
   "property": "C14",
   "status": "proved",
   "theorems": [
    "C14_column_is_exact"
   ],
   "note": "For every reachable state, when no text contains a line feed (C14_proviso shows the proviso is needed)."
  },
  {
   "property": "C15",
   "status": "proved",
   "theorems": [
    "C15_no_overflow",
    "C15_overflow_possible"
   ],
   "note": "Widths and indents are u32 in the code; the engine is modelled a second time with 32-bit additions."
  },
  {
   "property": "C16",
   "status": "proved",
   "theorems": [
    "C16_output_ends_with_line_feed"
   ],
   "note": "Every tree, configuration and build."
  },
  {
   "property": "C17",
   "status": "partial",
   "theorems": [
    "C17_no_trailing_space_partial",
    "C17_no_trailing_space_comments_partial",
    "C17_no_trailing_space_refuted",
    "C17_lookup_refuted",
    "C17_comments_refuted"
   ],
   "note": "Proved for every source without comments whose for statements have an update part and whose LOOKUP clauses have a BIND part, at every width: no line of the output ends with white space. Proved as well with comments that stand in front of something other than a separator, behind a statement or declaration at the end of its row, or alone in braces, where no line of a plain block comment is blank. Refuted for a for statement without update that does not fit on one line, for a LOOKUP without BIND, for a block comment with an empty line, for a comment in front of a comma and for a constructor with nothing but a super call and a comment."
  },
  {
   "property": "C18",
   "status": "proved",
   "theorems": [
    "C18_check_changes_nothing",
    "C18_check_reports_faithfully",
    "C18_exit_status"
   ],
   "note": "Every interleaving, every answer of the operating system, other writers included."
  },
  {
   "property": "C19",
   "status": "proved",
   "theorems": [
    "C19_write_stores_the_text"
   ],
   "note": "Provided nobody else changes that file during the run."
  },
  {
   "property": "C20",
   "status": "proved",
   "theorems": [
    "C20_dry_run_changes_nothing",
    "C20_dry_run_prints_the_text"
   ],
   "note": "With --time the elapsed time line follows the text."
  },
  {
   "property": "C21",
   "status": "partial",
   "theorems": [
    "C21_failure_changes_nothing",
    "C21_failure_prints_no_text",
    "C21_failed_write_refuted"
   ],
   "note": "Proved for every failure before writing; the exit status is 134 instead of 1 for a stack overflow, and a write that fails midway exits with 1 after the old content was lost (refutation)."
  },
  {
   "property": "C22",
   "status": "partial",
   "theorems": [
    "C22_crash_leaves_old_or_beginning_partial",
    "C22_crash_loses_text_refuted"
   ],
   "note": "The claim is false: the file is truncated first. Proved: at every moment the file holds the old content or a beginning of the new text, and every beginning does occur."
  },
  {
   "property": "C23",
   "status": "proved",
   "theorems": [
    "C23_one_result_per_file",
    "C23_the_call_ends",
    "C23_abort_only_for_deep_files"
   ],
   "note": "The call returns unless a file runs out of stack, which aborts the process."
  },
  {
   "property": "C24",
   "status": "partial",
   "theorems": [
    "C24_results_in_any_order_refuted",
    "C24_second_result_first_refuted",
    "C24_single_file_partial"
   ],
   "note": "False for several files: any order is possible. True for one file, which is what the command line program passes."
  },
  {
   "property": "C25",
   "status": "partial",
   "theorems": [
    "C25_files_are_independent",
    "C25_deep_file_refuted",
    "C25_deep_file_exists"
   ],
   "note": "Proved for panics; refuted for a stack overflow, which ends the process."
  },
  {
   "property": "C26",
   "status": "partial",
   "theorems": [
    "C26_second_call_refuted",
    "C26_after_syntax_error_partial"
   ],
   "note": "False: a second call panics. It works only after calls that met a syntax error."
  },
  {
   "property": "C27",
   "status": "proved",
   "theorems": [
    "C27_syntax_error_gives_no_text",
    "C27_reported_node",
    "C27_no_report_without_error"
   ],
   "note": ""
  },
  {
   "property": "C28",
   "status": "partial",
   "theorems": [
    "C28_snippet_is_a_prefix",
    "C28_exactly_when_it_crashes_partial",
    "C28_crash_refuted"
   ],
   "note": "Cutting panics exactly when byte 80 of a longer text is inside a character."
  },
  {
   "property": "C29",
   "status": "proved",
   "theorems": [
    "C29_defaults",
    "C29_unusable_file",
    "C29_zero_indent_fails"
   ],
   "note": "The TOML parser is an argument of the model."
  },
  {
   "property": "C30",
   "status": "proved",
   "theorems": [
    "C30_javadoc_idempotent"
   ],
   "note": "For every JavaDoc comment text, at every indentation and width."
  },
  {
   "property": "C31",
   "status": "proved",
   "theorems": [
    "C31_block_comment_lines",
    "C31_block_comment_words",
    "C31_block_comment_idempotent"
   ],
   "note": "Printed lines are the trimmed source lines; words equal; re-reading prints the same."
  },
  {
   "property": "C32",
   "status": "partial",
   "theorems": [
    "C32_blank_line_read",
    "C32_blank_line_printed_partial",
    "C32_blank_line_output_partial",
    "C32_first_row_refuted"
   ],
   "note": "Proved of the whole formatter for files of the grammar of SpecTokens.v without comments: in the output the first character of a member of a file, class, interface, constructor body or block is exactly two rows below the character before it if the source has an empty row between the members, and exactly one if not. Reading and printing of blank lines are also proved separately with comments. Missing: the rows of the output with comments, bodies in expressions; false when the next member is on the first row of the file (panic with overflow checks, spurious blank line without)."
  },
  {
   "property": "C33",
   "status": "partial",
   "theorems": [
    "C33_filters_partial",
    "C33_filters_comments_partial",
    "C33_one_reading",
    "C33_not_refuted"
   ],
   "note": "Proved for every WHERE and HAVING clause, at any depth and with any needless parentheses, of every file of the grammar of SpecTokens.v, without comments and with comments at the places of C05. Refuted: NOT (NOT x) is printed as NOT NOT x, which SOQL's grammar cannot read."
  },
  {
   "property": "C34",
   "status": "partial",
   "theorems": [
    "C34_formatting_terminates",
    "C34_unknown_conditions_refuted",
    "C34_every_unknown_condition_loops"
   ],
   "note": "Proved: reading (and all of formatting) ends within 6*height+1 nested calls when query conditions are of the four kinds the grammar has. Refuted in general: a condition of any other kind is read for ever, at every stack size."
  },
  {
   "property": "C35",
   "status": "partial",
   "theorems": [
    "C35_tokens_partial",
    "C35_same_characters_partial",
    "C35_verbatim_partial",
    "C35_layout_independent",
    "C35_dimensions_refuted",
    "C35_updates_refuted",
    "C35_final_refuted",
    "C35_empty_if_refuted",
    "C35_annotation_refuted",
    "C35_from_refuted",
    "C35_alias_refuted",
    "C35_parentheses_refuted",
    "C35_not_refuted",
    "C35_comments_partial",
    "C35_verbatim_comments_partial",
    "C35_lone_comment_refuted"
   ],
   "note": "Proved for every tree of the grammar stated in SpecTokens.v (declarations, statements, expressions, SOQL queries and SOSL searches of any size and depth; needless parentheses in the filters of queries are not counted as tokens) without comments. Refuted for constructs outside that grammar: a second pair of brackets, a second update, a loop variable's modifier a second object behind FROM, the AS of an alias and the empty parentheses of an annotation are lost, the empty statement of an if is doubled, an annotation behind a modifier moves, NOT (NOT x) loses its parentheses. With comments: C35_comments_partial (file_tree allows comments anywhere between the children of a node; the code tokens and the lines of all comments, shuffled, are the output); refuted for a comment alone between parentheses (foo(/* c */) prints foo/* c */). Of the 301 test files of the project, whose expected outputs the model reproduces (Conf*.v), 299 follow the grammar."
  },
  {
   "property": "C36",
   "status": "partial",
   "theorems": [
    "C36_brackets_partial",
    "C36_brackets_refuted"
   ],
   "note": "False in general: foo(/* c */) loses its brackets. Proved: in every file of the grammar of SpecTokens.v in which comments stand alone only in the braces of bodies, all words and signs of the code stand in the output in order, whatever comments there are."
  },
  {
   "property": "C37",
   "status": "partial",
   "theorems": [
    "C37_semicolons_partial",
    "C37_signs_partial",
    "C37_empty_statement_refuted"
   ],
   "note": "False for if: a witness is proved. Proved: files of the grammar of SpecTokens.v (no empty statement behind if or else) without comments keep their sequence of semicolons; with comments (at the places of C05) every sign, and so the semicolon, is printed as often as it is in the tokens and comment lines of the source."
  },
  {
   "property": "C38",
   "status": "partial",
   "theorems": [
    "C38_outputs_differ_partial",
    "C38_characters_differ_partial",
    "C38_modifier_refuted"
   ],
   "note": "False in general: final of a loop variable is dropped. Proved: two files of the grammar of SpecTokens.v without comments that differ in a word or sign have different outputs; with comments (at the places of C05), two files that differ in the characters of their tokens and comments."
  },
  {
   "property": "C39",
   "status": "partial",
   "theorems": [
    "C39_formatting_again_partial",
    "C39_sources_partial",
    "C39_comments_refuted"
   ],
   "note": "Proved for every source of the grammar without comments and without parentheses that afmt removes, every configuration and every stack, in a build without overflow checks, provided the parser finds in the output the tree of the source with the rows that its tokens have there (the parser is generated C code outside the repository). False with comments: C39_comments_refuted. Not covered: builds with overflow checks (they may panic on the first row, C32), sources with parentheses that afmt removes."
  },
  {
   "property": "C40",
   "status": "proved",
   "theorems": [
    "C40_separator_found",
    "C40_separator_printed"
   ],
   "note": "For every separator and every list of comments around it, at every indentation and width."
  },
  {
   "property": "C41",
   "status": "proved",
   "theorems": [
    "C41_every_code_node_has_a_record",
    "C41_lookup_never_fails"
   ],
   "note": "Map level: every code node has a record. Program level: on a tree of the grammar (SpecRead.grammatical) formatting never panics with the lookup failure."
  },
  {
   "property": "C42",
   "status": "partial",
   "theorems": [
    "C42_result_deterministic",
    "C42_reports_permuted",
    "C42_report_order_refuted"
   ],
   "note": "The outcome is proved independent of the hash order for every tree; the order of the stderr report of erased comments does depend on it."
  },
  {
   "property": "C43",
   "status": "partial",
   "theorems": [
    "C43_lone_space_not_doubled",
    "C43_other_text_printed_in_full",
    "C43_space_before_softline_refuted"
   ],
   "note": "Proved for texts; refuted for a soft break printed as a space after a text ending in a space."
  },
  {
   "property": "C44",
   "status": "proved",
   "theorems": [
    "C44_levels",
    "C44_unsupported_rejected",
    "C44_table",
    "C44_binary_expression"
   ],
   "note": ""
  },
  {
   "property": "C45",
   "status": "partial",
   "theorems": [
    "C45_members_deeper_partial",
    "C45_first_member_partial",
    "C45_next_member_partial",
    "C45_closing_brace_partial",
    "C45_constructor_refuted",
    "C45_else_refuted"
   ],
   "note": "Proved of the whole formatter for files of the grammar of SpecTokens.v without comments: in the output every member of a class, interface, constructor body or block begins a row at exactly (level + 1) indent steps and the closing brace begins a row at level steps, where the level counts the enclosing braces and brace-less if branches. For every line of a member: proved of every document whose members contain no dedent, no multi-line texts and no bare line feeds. False behind this()/super() and a blank line, and for the body of a statement that stands behind else without braces."
  },
  {
   "property": "C46",
   "status": "partial",
   "theorems": [
    "C46_collected_in_order",
    "C46_pre_printed_in_order_partial",
    "C46_post_printed_in_order_partial",
    "C46_separator_refuted",
    "C46_bracket_refuted"
   ],
   "note": "Source order is kept on collection unless two comments stand around a bracket, and on printing except for line comments before a separator; both exceptions have witnesses."
  },
  {
   "property": "C47",
   "status": "proved",
   "theorems": [
    "C47_nothing_is_invented"
   ],
   "note": "For trees of the grammar. Source pieces are texts of nodes of the tree, possibly upper or lower case, quoted or spaced."
  },
  {
   "property": "C48",
   "status": "proved",
   "theorems": [
    "C48_building_never_fails"
   ],
   "note": "For trees of the grammar, a sufficient stack and a positive indent size."
  },
  {
   "property": "C49",
   "status": "proved",
   "theorems": [
    "C49_a_bigger_stack_changes_nothing"
   ],
   "note": ""
  },
  {
   "property": "C50",
   "status": "proved",
   "theorems": [
    "C50_the_program_ends",
    "C50_the_program_is_never_stuck",
    "C50_every_run_can_exit"
   ],
   "note": "Steps of the program; a single formatting step is total in the model, with stack overflow as one of its outcomes."
  },
  {
   "property": "C51",
   "status": "proved",
   "theorems": [
    "C51_printed_comment_is_one_comment"
   ],
   "note": "For every text that is one block comment."
  },
  {
   "property": "C52",
   "status": "proved",
   "theorems": [
    "C52_javadoc_keeps_characters",
    "C52_star_doubled_refuted"
   ],
   "note": "Stars are excluded by the statement; the second theorem shows that they are indeed not kept."
  },
  {
   "property": "C53",
   "status": "proved",
   "theorems": [
    "C53_comment_behind",
    "C53_comment_before"
   ],
   "note": "For the comments directly next to a construct, whatever texts the construct starts or ends with; gaps between two comments of the same side are not covered."
  },
  {
   "property": "C54",
   "status": "partial",
   "theorems": [
    "C54_words_partial",
    "C54_same_words_partial",
    "C54_words_comments_partial",
    "C54_word_counts_partial",
    "C54_super_refuted",
    "C54_signs_refuted"
   ],
   "note": "Proved for every tree following the grammar of SpecTokens.v, every width and stack. With comments (at the places of C05): the words of the output are those of the tokens and comment lines, the tokens in their order and each comment once, so no word is joined with or split by a comment. Missing: the constructs outside the grammar, comments alone in brackets other than braces. Refuted: a.super(x) prints asuper(x); the signs of - -x come to touch."
  },
  {
   "property": "C55",
   "status": "partial",
   "theorems": [
    "C55_arranged_partial",
    "C55_landmarks_partial",
    "C55_accessor_refuted"
   ],
   "note": "Proved for the files of the grammar of SpecTokens.v under simple_places and ordered_places (no two comments around a bracket, no block comment behind a line comment in front of a separator, no comments on both sides of the semicolon of an accessor); each of these exceptions is refuted (C46_bracket_refuted, C46_separator_refuted, C55_accessor_refuted)."
  },
  {
   "property": "C56",
   "status": "proved",
   "theorems": [
    "C56_layout_does_not_matter",
    "C56_sources",
    "C56_first_row_refuted"
   ],
   "note": "alike_by/gap/same_text of SpecLayout.v say what must agree; the first-row clause cannot be dropped (C56_first_row_refuted)."
  },
  {
   "property": "C57",
   "status": "partial",
   "theorems": [
    "C57_supported_files_partial",
    "C57_supported_files_with_comments_partial",
    "C57_category_refuted",
    "C57_property_refuted",
    "C57_merge_refuted",
    "C57_first_row_refuted"
   ],
   "note": "Proved for every tree of the grammar that is `supported` (SpecSupported.v): without comments the file is formatted, with comments it is formatted or the erased-comment report is given. False, and refuted, for a query WITH DATA CATEGORY, a property without accessors, merge with one record and, in debug builds, two declarations on the first row."
  },
  {
   "property": "C58",
   "status": "partial",
   "theorems": [
    "C58_comments_do_not_matter_partial",
    "C58_for_refuted",
    "C58_type_refuted",
    "C58_braces_refuted",
    "C58_switch_refuted"
   ],
   "note": "Proved for every file of supported constructs whose comments are not at the places listed in SpecLoud.v (loud_places) and do not stand alone between signs other than braces (comments_in_braces). False at such places: four refutations. The parser output is assumed to obey file_tree and grammatical."
  },
  {
   "property": "C59",
   "status": "partial",
   "theorems": [
    "C59_no_two_empty_lines_partial",
    "C59_comment_refuted"
   ],
   "note": "Proved for every source whose comments stand in front of something, behind a statement or declaration as the last thing in its row, or alone in braces, at every width and indentation. Missing: comments at other places. Refuted for block comments that themselves hold empty lines: these are kept."
  },
  {
   "property": "C60",
   "status": "partial",
   "theorems": [
    "C60_single_spaces_partial",
    "C60_catch_refuted"
   ],
   "note": "Proved for every source whose comments stand in front of something (but not of catch, finally or the list of extends or implements), behind a statement or declaration as the last thing in its row, or alone in braces, and whose copied texts and comment lines have no two spaces in a row, at every width and indentation. Missing: comments at other places. Refuted for a comment between a block and catch."
  },
  {
   "property": "C61",
   "status": "partial",
   "theorems": [
    "C61_no_empty_line_at_the_ends_partial"
   ],
   "note": "Proved under the hypotheses of C59: no comments behind other things than statements and declarations or in front of separators, no block comments with blank lines. C16 adds that there is a line break at the end."
  },
  {
   "property": "C62",
   "status": "partial",
   "theorems": [
    "C62_write_keeps_the_program_partial"
   ],
   "note": "From the command line to the tokens in the file, for every execution in which nobody else writes and the file can be read and written. Missing: the constructs left out by the grammar of SpecTokens.v and by SpecSupported.v, and comments at the places of SpecLoud.v. 299 of the 301 test files of the project meet the hypotheses."
  }
 ]
}
