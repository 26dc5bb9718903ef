{"id": "C01", "title": "Layout always terminates", "statement": "Rendering a layout document to text terminates with a result for every document and every width; in particular the look-ahead that decides whether a group fits terminates as well.", "quantifier": "every layout document (any nesting of text, breaks, groups, indents), every max_width, every column", "why_tests_cant": "A test can only run finitely many documents; non-termination would show as a hang on an input nobody tried.", "anchors": ["src/doc.rs: pretty_print, PrettyPrinter::print, PrettyPrinter::fits"]}
{"id": "C02", "title": "Configuration changes only white space", "statement": "For one source file, changing max_width or indent_size (>= 1) never changes whether formatting succeeds and never changes anything but spaces and line breaks: the outputs are equal once spaces and line feeds are deleted.", "quantifier": "every syntax tree, every pair of configurations with non-zero indent size", "why_tests_cant": "There are 2^64 configurations per file and unboundedly many files; tests use one or two widths.", "anchors": ["src/formatter.rs: Formatter::format_one, Config", "src/doc.rs: pretty_print", "src/doc_builder.rs: DocBuilder", "src/data_model.rs: every build_inner", "src/enum_def.rs: every build_inner"]}
{"id": "C03", "title": "No comment is silently lost", "statement": "If formatting returns a text, then every comment attached to the syntax tree occurs in that text: each of its (normalised) lines occurs verbatim, in order, separated only by line breaks and indentation.", "quantifier": "every syntax tree, every configuration, every comment in the tree below code nodes", "why_tests_cant": "Comments may appear between any two tokens of any program; test files sample a handful of placements.", "anchors": ["src/formatter.rs: format_one", "src/utility.rs: collect_comments, assert_no_missing_comments, handle_pre_comments, handle_post_comments, handle_dangling_comments", "src/context.rs: Comment::build_inner, Punctuation::build_inner"]}
{"id": "C04", "title": "A line comment never swallows code", "statement": "In every successful output, the text of each // comment of the source that is printed is followed, after spaces only, by a line break: nothing else ever follows it on its line.", "quantifier": "every syntax tree, every configuration, every line comment", "why_tests_cant": "The break is deferred and may be overwritten, cleared or flattened by whatever follows; the combinations are unbounded.", "anchors": ["src/context.rs: Comment::build_inner (138-144)", "src/doc.rs: print, NewlineBuffer"]}
{"id": "C05", "title": "No comment is duplicated", "statement": "In a successful output each comment of the source is emitted exactly once.", "quantifier": "every syntax tree, every configuration", "why_tests_cant": "Duplication depends on which pairs of printed constructs share one syntax node; tests cover few pairs.", "anchors": ["src/data_model.rs: SoqlWithType", "src/enum_def.rs: SoqlWithTypeVariant", "src/utility.rs: build_with_comments_and_punc"]}
{"id": "C06", "title": "Every comment is attached exactly once", "statement": "Comment collection attaches each comment below code nodes to exactly one node as exactly one of leading, trailing or dangling, and attaches nothing else.", "quantifier": "every syntax tree with distinct node ids", "why_tests_cant": "Attachment depends on the whole sibling sequence and rows; unbounded shapes.", "anchors": ["src/utility.rs: collect_comments"]}
{"id": "C07", "title": "Comments are attached to a neighbour by the documented rule", "statement": "A comment with no code sibling before it is attached as leading comment of the next code sibling (dangling on the parent when there is none); otherwise, if it is the last thing in its parent it trails the previous code sibling, if the next non-comment sibling is , or ; it leads that punctuation, if it ends on the row where the previous code sibling ends it trails it, and otherwise it leads the next code sibling.", "quantifier": "every node, every sibling sequence, every row assignment", "why_tests_cant": "The rule is a case split over arbitrary sibling sequences, which examples cannot exhaust.", "anchors": ["src/utility.rs: collect_comments (163-274)"]}
{"id": "C08", "title": "Formatting fails rather than drop a comment", "statement": "If any attached comment has not been emitted when the document is complete, formatting does not return a text.", "quantifier": "every syntax tree, every configuration, every comment", "why_tests_cant": "A test can show one erased comment is caught, not that none can slip through.", "anchors": ["src/utility.rs: assert_no_missing_comments", "src/formatter.rs: format_one (163)"]}
{"id": "C09", "title": "A file that contains only comments can be formatted", "statement": "Formatting a file whose only content is one or more comments returns a text.", "quantifier": "every root node whose children are all comments", "why_tests_cant": "One needs to know it for every comment-only file, whatever the comments and the layout.", "anchors": ["src/data_model.rs: Root::build_inner (44-59)", "src/utility.rs: assert_no_missing_comments"]}
{"id": "C10", "title": "A line chosen flat never runs past the width", "statement": "When a group that is not yet forced flat is laid out on one line, the line that results, trailing spaces aside, does not end beyond max(max_width, the column the group started at).", "quantifier": "every document, every continuation, every width, every column", "why_tests_cant": "The look-ahead assumes other groups break while the printer may keep them flat; only an invariant over all continuations settles it.", "anchors": ["src/doc.rs: print, fits"]}
{"id": "C11", "title": "A group is broken only when it must be", "statement": "A group with no forced break is printed on one line whenever its flat text plus what follows up to the next possible break fits in the remaining width, and is broken otherwise.", "quantifier": "every document, every width, every column", "why_tests_cant": "The decision depends on unbounded look-ahead.", "anchors": ["src/doc.rs: fits, print", "src/doc_builder.rs: group"]}
{"id": "C12", "title": "Line breaks are coalesced, never lost", "statement": "Any run of hard breaks between two texts yields exactly one line break; a break between two texts yields at least one; and an 'empty line' request yields exactly one blank line.", "quantifier": "every document, every position", "why_tests_cant": "The pending-break buffer is state shared by all constructs; the histories are unbounded.", "anchors": ["src/doc.rs: NewlineBuffer, print", "src/doc_builder.rs: empty_new_line"]}
{"id": "C13", "title": "Indentation is nesting depth times indent size", "statement": "Every line break that starts an indented line is followed by exactly depth x indent_size spaces, depth being the number of enclosing indents (dedents subtract, never below zero).", "quantifier": "every document built with one configuration, every width", "why_tests_cant": "Depth is unbounded.", "anchors": ["src/doc.rs: Chunk::indented, Chunk::dedented, insert_newline_with_indent", "src/doc_builder.rs: indent, dedent"]}
{"id": "C14", "title": "Column accounting is exact", "statement": "At every layout decision the printer's idea of the current column equals the number of bytes printed since the last line break, provided no text contains a line break.", "quantifier": "every document, every prefix of the run", "why_tests_cant": "Needs an invariant over the whole run.", "anchors": ["src/doc.rs: print", "src/doc_builder.rs: txt"]}
{"id": "C15", "title": "No arithmetic overflow in layout", "statement": "If the document's total text width and total indentation are below 2^32 then no 32-bit addition in the layout engine overflows, so debug and release builds print the same text; otherwise overflow is possible.", "quantifier": "every document, every width", "why_tests_cant": "Overflow needs huge inputs that tests never build.", "anchors": ["src/doc.rs: Chunk::indented, print", "src/doc_builder.rs: txt"]}
{"id": "C16", "title": "Output ends with a line break", "statement": "Every successful output is non-empty and its last character is a line feed.", "quantifier": "every syntax tree, every configuration", "why_tests_cant": "Any construct could come last in the file.", "anchors": ["src/data_model.rs: Root::build_inner", "src/doc.rs: print (178-182)"]}
{"id": "C17", "title": "No trailing white space", "statement": "No line of a successful output ends with a space.", "quantifier": "every document", "why_tests_cant": "A counterexample needs a particular combination of flat group and pending break.", "anchors": ["src/doc.rs: print (116-123)"]}
{"id": "C18", "title": "--check never modifies anything and reports faithfully", "statement": "With --check the file system is never written, and the exit status is 0 exactly when formatting succeeds, the file can be re-read and its content is byte-for-byte the formatted text.", "quantifier": "every file system state, every file content, every outcome of formatting, every interleaved change of the file", "why_tests_cant": "Must hold for all contents and failures.", "anchors": ["src/main.rs: run, main"]}
{"id": "C19", "title": "--write stores exactly the formatted text", "statement": "With --write (and not --check), a run that exits with 0 leaves the target file holding exactly the formatted text and leaves every other file as it was.", "quantifier": "every file system state, every outcome", "why_tests_cant": "Must hold for all contents and failures.", "anchors": ["src/main.rs: run"]}
{"id": "C20", "title": "A dry run writes no file and prints the formatted text", "statement": "Without --write and --check no file is ever written, and on success standard output is the formatted text followed by one line feed.", "quantifier": "every file system state, every outcome", "why_tests_cant": "Must hold for all contents and failures.", "anchors": ["src/main.rs: run"]}
{"id": "C21", "title": "Any failure exits with 1 and leaves files untouched", "statement": "If the configuration cannot be read or parsed, the file cannot be read, the source has a syntax error or formatting panics, the exit status is 1 and no file has been changed.", "quantifier": "every file system state, every mode, every failure", "why_tests_cant": "The failure points are many and combine.", "anchors": ["src/main.rs: run, main", "src/formatter.rs: create_from_config, format"]}
{"id": "C22", "title": "A crash during --write leaves the old or the new file", "statement": "If the process dies at any point of a --write run the target file holds either its old content or the complete new content.", "quantifier": "every crash point, every content", "why_tests_cant": "Crash points cannot be enumerated by unit tests.", "anchors": ["src/main.rs: run (43)"]}
{"id": "C23", "title": "One result per file under every schedule", "statement": "Formatting n files returns exactly n results, and as a multiset they are the per-file results, whatever order the worker threads run and finish in; the call always returns.", "quantifier": "every list of files, every thread schedule", "why_tests_cant": "Schedules cannot be enumerated by tests.", "anchors": ["src/formatter.rs: Formatter::format"]}
{"id": "C24", "title": "Results are in input order", "statement": "The i-th result returned belongs to the i-th input file.", "quantifier": "every list of files, every thread schedule", "why_tests_cant": "A wrong order appears only under some schedules.", "anchors": ["src/formatter.rs: Formatter::format (102-139)"]}
{"id": "C25", "title": "One failing file does not affect the others", "statement": "The result for a file depends only on that file's content and the configuration: replacing any other file by one that makes its worker panic changes only that other file's result.", "quantifier": "every list of files, every failure pattern, every schedule", "why_tests_cant": "Failure patterns are exponential in the number of files.", "anchors": ["src/formatter.rs: Formatter::format", "src/utility.rs: thread_local statics"]}
{"id": "C26", "title": "The library entry point can be called again", "statement": "Calling the single-source formatting entry point again on the same thread behaves like the first call.", "quantifier": "every sequence of calls on one thread", "why_tests_cant": "Depends on the call history.", "anchors": ["src/formatter.rs: format_one", "src/utility.rs: set_thread_source_code, set_thread_comment_map"]}
{"id": "C27", "title": "Source with a syntax error is never formatted", "statement": "If the syntax tree contains an error no text is returned; the node reported is erroneous, has no erroneous child, and lies on the path of last erroneous children.", "quantifier": "every syntax tree with any pattern of erroneous nodes", "why_tests_cant": "Error patterns are unbounded.", "anchors": ["src/formatter.rs: parse, find_last_error_node"]}
{"id": "C28", "title": "Error snippets are short and never crash", "statement": "The snippet shown for an error is a prefix of the source text of at most 80 bytes (marked when cut), for every source text.", "quantifier": "every string", "why_tests_cant": "Needs all strings, in particular those with a multi-byte character across byte 80.", "anchors": ["src/utility.rs: truncate_snippet"]}
{"id": "C29", "title": "Configuration defaults and validation", "statement": "Fields missing from the configuration take the values 80 and 2, and a zero indent size never yields output: every file fails.", "quantifier": "every configuration, every source", "why_tests_cant": "Must hold for all sources.", "anchors": ["src/formatter.rs: Config", "src/doc.rs: PrettyConfig::new"]}
{"id": "C30", "title": "JavaDoc normalisation is idempotent", "statement": "Formatting the text of a /** comment, re-reading the printed lines at any indentation and formatting again gives the same lines.", "quantifier": "every comment text starting with /**, every indentation", "why_tests_cant": "Comment text is arbitrary, including stars, empty lines and Unicode space.", "anchors": ["src/context.rs: Comment::build_inner (148-209)"]}
{"id": "C31", "title": "Block comments keep their words", "statement": "Each printed line of an ordinary block comment is the source line without its surrounding white space, in order, none added or dropped; normalisation is idempotent.", "quantifier": "every comment text", "why_tests_cant": "Arbitrary text.", "anchors": ["src/context.rs: Comment::build_inner (210-219)"]}
{"id": "C32", "title": "Blank lines between members are preserved and capped", "statement": "Between two consecutive members of a body or file the output has one blank line when the source had at least one, and none when the source had none.", "quantifier": "every pair of consecutive members and every row assignment", "why_tests_cant": "Row arithmetic must be right for every row, including the first.", "anchors": ["src/enum_def.rs: BodyMember::has_trailing_newline", "src/doc_builder.rs: intersperse_body_members"]}
{"id": "C33", "title": "SOQL filters keep their meaning", "statement": "The printed WHERE/HAVING condition, read back with SOQL's grouping rules, has the same truth table as the source condition.", "quantifier": "every condition built from comparisons, AND, OR, NOT at any depth, every valuation", "why_tests_cant": "Nesting is unbounded.", "anchors": ["src/enum_def.rs: BooleanExpression, ConditionExpression, should_parenthesize", "src/data_model.rs: AndExpression, OrExpression, NotExpression"]}
{"id": "C34", "title": "Reading the syntax tree terminates", "statement": "Building the typed syntax data from any syntax tree terminates (with data or with a reported failure).", "quantifier": "every syntax tree", "why_tests_cant": "Non-termination needs a particular unexpected node.", "anchors": ["src/enum_def.rs: BooleanExpression::new, ConditionExpression::new", "src/data_model.rs: every new"]}
{"id": "C35", "title": "Code tokens are preserved", "statement": "The output consists of the code tokens of the source, in their order, none dropped, added or printed twice, and of the lines of its comments, with only white space between them; tokens are verbatim but for the case of the words of the language. In particular, for source without comments, the output without white space is the source without white space, up to keyword case.", "quantifier": "every syntax tree of the grammar", "why_tests_cant": "Every construct in every context.", "anchors": ["src/data_model.rs", "src/enum_def.rs"]}
{"id": "C36", "title": "A comment inside empty brackets does not remove the brackets", "statement": "Putting a comment between an opening and a closing bracket that enclose nothing else does not remove the brackets from the output.", "quantifier": "every bracketed construct, every comment", "why_tests_cant": "Each construct needs its own test, for every comment placement.", "anchors": ["src/utility.rs: build_with_comments_core (307-316)", "src/data_model.rs: ArgumentList, FormalParameters, Dimensions"]}
{"id": "C37", "title": "Each semicolon is printed once", "statement": "An empty statement used as a statement body is printed as exactly one semicolon.", "quantifier": "every if/while/for with an empty statement as body", "why_tests_cant": "Interaction of two mechanisms for printing punctuation.", "anchors": ["src/data_model.rs: IfStatement", "src/context.rs: Punctuation::from", "src/enum_def.rs: Statement"]}
{"id": "C38", "title": "No clause is dropped", "statement": "Two syntax trees that differ in a clause or modifier produce different outputs.", "quantifier": "every pair of syntax trees", "why_tests_cant": "Each clause of each construct must be covered.", "anchors": ["src/data_model.rs: EnhancedForStatement, SoqlQueryBody, MethodDeclaration"]}
{"id": "C39", "title": "Formatting is idempotent", "statement": "Formatting the output again with the same configuration gives the output.", "quantifier": "every source, every configuration", "why_tests_cant": "All programs.", "anchors": ["src/formatter.rs: format_one"]}
{"id": "C40", "title": "Punctuation is printed once with its comments around it", "statement": "The separator found after a construct is printed exactly once; block comments before it stay before it, line comments before it move behind it, comments after it stay after it, none is lost and the relative order within each group is kept.", "quantifier": "every separator and every list of comments around it", "why_tests_cant": "Comment lists are unbounded.", "anchors": ["src/context.rs: Punctuation::from, Punctuation::build_inner"]}
{"id": "C41", "title": "Comment lookup never fails on code nodes", "statement": "After comment collection every code node (named, not a comment) reachable from the root through code nodes, and every , ; else token below such a node, has a comment record, so the lookup made while printing it cannot panic.", "quantifier": "every syntax tree", "why_tests_cant": "All node kinds and depths.", "anchors": ["src/utility.rs: get_comment_bucket, collect_comments"]}
{"id": "C42", "title": "Output is deterministic", "statement": "The result of formatting is a function of source and configuration: it does not depend on hash-map iteration order or on anything else that varies between runs.", "quantifier": "every source, configuration, hash seed", "why_tests_cant": "Hash seeds vary between runs; a test samples one per run.", "anchors": ["src/context.rs: CommentMap", "src/utility.rs: assert_no_missing_comments"]}
{"id": "C43", "title": "A separating space is never doubled", "statement": "A lone separating space is not printed directly after a space, and any other text is always printed in full.", "quantifier": "every document", "why_tests_cant": "All neighbours of a space.", "anchors": ["src/doc.rs: print (140-146)"]}
{"id": "C44", "title": "Operator precedence table is a total preorder on the supported operators and unsupported operators are rejected", "statement": "Every supported operator has exactly one level, assignment binds weakest and unary strongest, and an operator outside the list makes formatting fail instead of being misprinted.", "quantifier": "every operator string", "why_tests_cant": "All strings.", "anchors": ["src/utility.rs: get_precedence"]}
{"id": "C45", "title": "Members of a body are printed one level deeper", "statement": "In the output, every line of a member of a class, interface, enum, constructor or block body starts at least one indent step to the right of the line of the opening brace.", "quantifier": "every syntax tree, every configuration", "why_tests_cant": "Every construct that can open a body, at every depth and combined with every member.", "anchors": ["src/data_model.rs: ClassBody, ConstructorBody, Block, InterfaceBody, EnumBody", "src/doc_builder.rs: surround_with_newline, surround_body_members"]}
{"id": "C46", "title": "Comments of one place keep their order", "statement": "Two comments attached to the same side of the same node are printed in the order in which they stand in the source.", "quantifier": "every syntax tree and every pair of comments", "why_tests_cant": "The order depends on which rule attached each comment.", "anchors": ["src/utility.rs: collect_comments"]}
{"id": "C47", "title": "Nothing is invented", "statement": "Every piece of the output between blanks is a keyword or sign of the language, text of the source (a node's text, possibly in another case), or a line of a comment of the source.", "quantifier": "every syntax tree of the grammar, every configuration", "why_tests_cant": "Ranges over all trees and all source texts.", "anchors": ["src/data_model.rs", "src/enum_def.rs", "src/utility.rs"]}
{"id": "C48", "title": "Once a tree has been read, printing it cannot fail", "statement": "After the tree was read without failure, producing the text never panics, except for the final report that comments would be lost.", "quantifier": "every syntax tree of the grammar, every configuration with a positive indent size", "why_tests_cant": "Every unwrap and lookup of every builder.", "anchors": ["src/data_model.rs: every build_inner", "src/doc_builder.rs", "src/utility.rs: get_comment_bucket"]}
{"id": "C49", "title": "The result does not depend on the size of the stack", "statement": "If formatting a file does not exhaust the stack, a thread with a larger stack gives exactly the same result.", "quantifier": "every syntax tree, every pair of stack sizes", "why_tests_cant": "Stack sizes differ between machines and threads.", "anchors": ["src/formatter.rs: format (worker threads)", "src/data_model.rs: every new"]}
{"id": "C50", "title": "The program always comes to an end", "statement": "Whatever order threads run in, whatever the operating system answers and whatever else happens to the files meanwhile, the command line program makes only finitely many steps and is never stuck: it always reaches an exit.", "quantifier": "every execution of the program from any files, arguments, interleaving and answers of the operating system", "why_tests_cant": "A deadlock between the channel and the workers shows under some interleavings only; tests run few of them.", "anchors": ["src/main.rs: run, main", "src/formatter.rs: Formatter::format"]}
{"id": "C51", "title": "A printed block comment is still one comment", "statement": "If the source text of a block comment is opened at its start and closed only at its end, so is the text printed for it, at any indentation: no code after it can be swallowed and no part of it becomes code.", "quantifier": "every block or JavaDoc comment text, every indentation, every width", "why_tests_cant": "Comment text is arbitrary, including stars and slashes at line ends that could join into a closing sign.", "anchors": ["src/context.rs: Comment::build_inner (148-219)"]}
{"id": "C52", "title": "JavaDoc comments keep their characters", "statement": "The characters printed for a /** comment, without stars and white space, are those of the source comment in the same order.", "quantifier": "every JavaDoc comment text, every indentation, every width", "why_tests_cant": "Arbitrary text.", "anchors": ["src/context.rs: Comment::build_inner (148-209)"]}
{"id": "C53", "title": "Comments keep their place relative to their neighbours", "statement": "A comment behind a construct on the same line is printed on that line; one on a later line is printed on the next line, or behind exactly one blank line when the source had at least one. The same holds between the last comment before a construct and the construct.", "quantifier": "every comment, every neighbour, every row assignment, every width", "why_tests_cant": "The distance to the neighbours, their documents and the layout range over unboundedly many cases.", "anchors": ["src/context.rs: CommentMetadata::from", "src/utility.rs: handle_pre_comments, handle_post_comments"]}
{"id": "C54", "title": "Words are neither merged nor split", "statement": "The words of the output (longest runs of letters, digits and underscores) and its other visible characters are those of the tokens of the source, in the same order, up to the case of letters: two neighbouring words are never printed without a gap between them, and no word is broken in two.", "quantifier": "every syntax tree, every width, every indentation", "why_tests_cant": "Any two constructs may be neighbours, at any nesting and any line break; a missing space shows only for the pair it concerns.", "anchors": ["src/doc_builder.rs: concat, intersperse, group_surround", "src/data_model.rs: every build", "src/doc.rs: pretty_print"]}
{"id": "C55", "title": "Comments keep their place among names", "statement": "In a successful output, the names, literals and lines of comments stand in the order of the source: a comment stands between the same two names or literals as in the source, whichever rule attached it to a node.", "quantifier": "every syntax tree, every width, every indentation", "why_tests_cant": "A comment can stand between any two tokens of any construct, and attachment, construction and printing of each construct must agree about it.", "anchors": ["src/utility.rs: collect_comments", "src/doc_builder.rs: build_with_comments", "src/data_model.rs: every build"]}
{"id": "C56", "title": "The layout of the source does not matter", "statement": "Two sources with the same tokens and comments are formatted to the same text, or fail in the same way, however their line breaks, indentation and blanks differ and in whatever case their keywords are written. Only these rows matter: whether there is a blank line between two members, how far a comment is from its neighbours (same row, next row, further), and whether a member begins on the first row of the file.", "quantifier": "every pair of syntax trees that agree in this way, every width, every indentation", "why_tests_cant": "Any token of any construct may be moved by any distance; one constructor that reads a row, a byte or the source text of a composite node breaks the property.", "anchors": ["src/formatter.rs: format_one", "src/data_model.rs: every new", "src/context.rs: CommentMetadata::from", "src/utility.rs: collect_comments, has_trailing_new_line"]}
{"id": "C57", "title": "Every file of the language is formatted", "statement": "A source file without syntax errors is formatted: no construct of the language, in any combination, makes the formatter panic, and a file with comments fails only with the report that a comment has no place in the output.", "quantifier": "every syntax tree of the grammar, every source, every width, every indentation", "why_tests_cant": "The readers of some two hundred kinds of nodes unwrap children, fields and kinds of children; each must agree with what the grammar allows there, in every combination.", "anchors": ["src/data_model.rs: every new", "src/enum_def.rs: every new", "src/accessor.rs: c_by_n, c_by_k, cs_by_k", "src/utility.rs: assert_no_missing_comments"]}
{"id": "C58", "title": "Comments do not keep a file from being formatted", "statement": "A file of supported constructs is formatted whatever comments it has, however many, of either sort and wherever they stand: the report about a comment without a place in the output is never given.", "quantifier": "every syntax tree of the grammar, every placement of comments, every width, every indentation", "why_tests_cant": "A comment may stand between any two tokens; whether it is printed depends on the node it is attached to and on whether each of some two hundred readers keeps the context of that node.", "anchors": ["src/data_model.rs: every new and build", "src/utility.rs: build_with_comments, build_with_comments_and_punc, assert_no_missing_comments", "src/utility.rs: collect_comments"]}
{"id": "C59", "title": "The output never has two empty lines in a row", "statement": "However many empty lines a file has between its members, statements and comments, and wherever they stand, the formatted file has at most one empty line at a time; only the empty lines inside a block comment are kept.", "quantifier": "every syntax tree, every number of empty lines at every place, every width, every indentation", "why_tests_cant": "Empty lines are printed by member separators, in front of and behind comments and in braces, in any combination; whether two of them meet depends on what the neighbours print.", "anchors": ["src/utility.rs: handle_pre_comments, handle_post_comments, handle_dangling_comments", "src/doc_builder.rs: intersperse_body_members, surround_body_members, empty_new_line", "src/doc.rs: pretty_print"]}
{"id": "C60", "title": "Words in a line are separated by single spaces", "statement": "Apart from the indentation of a line and from strings and comments that themselves contain them, the formatted file never has two spaces in a row.", "quantifier": "every syntax tree, every width, every indentation", "why_tests_cant": "Spaces are printed in front of and behind some two hundred constructs by different functions; whether two of them meet depends on which optional parts and comments stand between them and on the line breaks chosen.", "anchors": ["src/data_model.rs: every build", "src/doc_builder.rs: txt, txt_, _txt, _txt_, softline", "src/doc.rs: pretty_print", "src/utility.rs: handle_pre_comments, handle_post_comments"]}
{"id": "C61", "title": "The output neither begins nor ends with an empty line", "statement": "Whatever empty lines and comments the source begins or ends with, the first line of the formatted file is not empty and the file ends with exactly one line break.", "quantifier": "every syntax tree, every width, every indentation", "why_tests_cant": "The breaks in front of the first text and behind the last one come from whichever declaration or comment stands there; whether they add up to an empty line depends on the comments, on the blank lines around them in the source and on the printer holding back and replacing line breaks.", "anchors": ["src/data_model.rs: Root::build", "src/utility.rs: build_members, handle_pre_comments, handle_post_comments", "src/doc.rs: pretty_print"]}
{"id": "C62", "title": "Formatting a file in place keeps the program", "statement": "When afmt --write is run on a file of supported constructs and nothing outside interferes, it exits with 0, changes no other file, and the file afterwards holds the tokens of the source in their order and each of its comments once, with only white space between them.", "quantifier": "every execution of the program (every interleaving of its threads and every split of its writes), every such source, configuration and stack size that is large enough", "why_tests_cant": "It joins the command line, the worker threads, the writes and the formatter; a test runs one schedule on one file.", "anchors": ["src/main.rs: main, run", "src/formatter.rs: Formatter::format, format_one", "src/data_model.rs", "src/doc.rs: pretty_print"]}
