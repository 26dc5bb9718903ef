# Formal model of afmt: design

Source: `/repo` (xixiaofinland/afmt 0.12.2, Rust).  Model and proofs: `/verif/rocq/theories` (Coq 8.16.1).
Nothing of the repository is compiled or run here; the model was written by reading the source.

## 1. Architecture of the model

| Coq file | models | how |
|---|---|---|
| `Base.v` | Rust `String`/`&str` operations used by afmt | a text is a `list N` of Unicode scalar values; `len` is the UTF-8 byte length; `trim*`, `split`, `strip_*` as in std; a panic is the explicit value `Panic`, running out of recursion fuel is `Overflow` (a stack overflow in Rust) |
| `Doc.v` | `src/doc.rs` | the printer as a one-step function on the explicit chunk stack, iterated with fuel; `fits` the same way |
| `Doc32.v` | the additions of `src/doc.rs` on `u32` | the same functions with explicit overflow: panic or wrap |
| `DocBuilder.v` | `src/doc_builder.rs` | each combinator, one definition each; the arena is dropped (documents are values) |
| `Cst.v` | `src/accessor.rs` and the part of tree-sitter's `Node` API it uses | rose trees of nodes plus a zipper (`loc`) giving parent and siblings |
| `Comments.v` | `src/context.rs`, comment part of `src/utility.rs` | `collect_comments`, `Comment`, `CommentMetadata`, `Punctuation`; comment documents |
| `Term.v` | the build phase: `DocBuild::build`, `build_with_comments*` | a term language of builder calls and `run`, which executes them and collects the comments marked as printed |
| `New.v` | `new` and `build_inner` of every type of `src/data_model.rs`, `src/enum_def.rs` | open recursion over a sort per Rust type, on fuel; `new` returns the builder calls of its `build_inner` |
| `Formatter.v` | `src/formatter.rs`, thread-locals of `src/utility.rs` | `format_one` as a state transformer on thread-local state |
| `Schedule.v` | `Formatter::format`: worker threads, channel, `catch_unwind` | a machine whose next step (of the main thread or of any worker) is chosen from outside |
| `Cli.v` | `src/main.rs`, `src/args.rs` | a machine over an abstract file system; the answers of the operating system, changes by others and the point of a crash are arbitrary |
| `Spec*.v` | nothing: small independent specifications | |
| `*Proofs.v` | lemmas | |
| `Properties*.v` | the property theorems, each closed by `exact`, `Print Assumptions` below | |

### Not modelled (trusted or out of scope)
* tree-sitter and the Apex grammar: the parser is an arbitrary function from text to tree (an argument of the
  theorems); every theorem quantifies over all trees.  Concrete trees in examples were written by hand after the
  node shapes the code expects.
* The grammar of `SpecTokens.v` (C35) is a hypothesis on trees, written after the node shapes the code reads; it is not
  derived from tree-sitter-sfapex, which is not available here.
* `serde`/`toml`, `clap` internals: the configuration file parser is an argument; the `conflicts_with` rule is modelled.
* memory (arena, leaked strings), real stack depth, time, terminal colours, stderr text.
* `String::to_lowercase` is modelled for ASCII letters only.
* Unsigned arithmetic is unbounded `N` except where overflow is the property (C15, C32), where the 32/64-bit wrap and
  the debug-build panic are explicit.

### Trusted base
Coq's kernel (8.16.1, checked again by `coqchk`), the reading of the Rust code (each definition cites file and lines),
and no axioms (see section 4).

## 2. Plan per property

C01 print/fits as fuelled step machines; explicit size measure; theorem: fuel `size` always suffices, more fuel changes nothing.
C02 relational proof over every builder: documents for two indent sizes agree up to indent amounts; printer content theorem: output minus spaces/newlines = content of document, both branches of each group equal.
C03 state-monad invariant "marked => its document is a sub-document of the result", over every builder; printer theorem: a sub-document's texts appear in order in the output; `assert_no_missing_comments` closes it; collection completeness (C06).
C04 printer theorem on `Text; Newline` adjacent in any sub-document, combined with C03's invariant.
C05 refuted by a tree where two builders share one node (a WITH type). Elsewhere proved: the term's pieces are tokens and comment lines in one list (`Arrange*.v`), each comment at most once there since it is attached once, and at least once since missing comments are an error; counting characters closes the gap.
C06 induction over the tree: the multiset of comments in all buckets = comments below code nodes.
C07 declarative placement function per sibling list, equality with the loop.
C08 direct from the last step, with the marks invariant.
C09 refuted for every comment-only root (universal failure theorem).
C10 invariant `col + required width <= max` maintained by each printer step after a successful `fits`.
C11 `fits` characterised by an independent first-line measure.
C12 atoms semantics: output = rendering of a list of atoms; theorems on the rendering.
C13 invariant: every chunk indent is a multiple; break atoms carry depth x size.
C14 printer invariant.
C15 32-bit printer with explicit overflow; equality with the unbounded printer under a size bound; witness of overflow.
C16 root document ends in a break, printer flushes it.
C17 refuted by a concrete document reachable from the builder API; positive (SeqComments.v, TrimEdges.v, TrimTame.v, TrimFormat.v): for sources without comments, and for sources whose comments stand in front of something other than a separator, at the end of a row behind a statement or declaration, or alone in braces, induction over the constructors with three levels of what may stand before and behind a piece of the layout (something visible, a possible break, a blank), then soundness of the levels for the rendered atoms; the exceptions are a `for` without update, a LOOKUP without BIND, block comments with blank lines, comments in front of commas and behind a lone `super(...)`, all refuted.
C18-C21 case analysis of `run` over an abstract file system and arbitrary formatter oracle.
C22 refuted with the truncate-then-write model of `fs::write`; positive: crash before the write leaves the file.
C23-C25 transition system of workers and channel; permutation invariant; completeness.
C24 refuted for two files; proved for one file.
C26 refuted; exact characterisation: a later call succeeds only if every earlier call failed before storing the source.
C27 induction on the tree.
C28 panic exactly when byte 80 splits a character; otherwise prefix.
C29 direct on the pipeline model.
C30/C31 theorem on line lists, for all texts.
C32 the row arithmetic with wrap; equality with the specification off row 0, refutation on row 0; separator printed between a member's last and the next one's first text. For the whole formatter: the pieces of the term are tagged with the indentation at which they are printed (`LevelTerm.v`), every body of the tree is found among them (`Reach.v`, `Reach2.v`, `Places.v`) with its members (`PlacesBody.v`), and rows and columns of the output follow (`LevelRows.v`, `PlacesFormat.v`). `SpecPlaces.v` says what row, column and level mean.
C33 `SpecFilters.v`: SOQL's grouping rules as a reader of lexemes (proved to have one reading), truth tables of readings and of syntax trees; with C54 the printed words of every WHERE and HAVING clause are lexemes with that reading, proved by induction over the condition. Parentheses the meaning does not need (`spare` in `SpecTokens.v`) may go. With comments the same of the words without those of the comments (by C54); refuted for `NOT (NOT x)`.
C34 fuel adequacy: fuel linear in tree height suffices for every tree whose conditions have known kinds; divergence for unknown kinds.
C35 `SpecTokens.v` states a grammar (which children, in which order, a node of each kind has) as a hypothesis on the tree; invariant over every `new`: the pieces of its term are the tokens of its node; queries and searches included, and needless parentheses in their filters, which are no tokens (`spare`); with comments, the output is a shuffle of these tokens and the lines of all comments (`TokensComments.v`); refuted for the constructs that afmt drops or moves, and for a comment alone between parentheses, which replaces them.
C36-C38 refutations on concrete trees run through the pipeline model; for the files of the grammar of `SpecTokens.v` the claims follow from C35 and C54 (`PropertiesMore.v`).
C39 `SpecReread.v` says what the parser finds in the output: the tree of the source, with the same words, and with the rows that the tokens have in the output (`found_again`). Nothing in the formatter but the blank line between two members reads a row of a source without comments; the term of the tree is printed token after token (`SeqTerm.v`, `SeqEdges.v`, `SeqHeads.v`), so the rows of a member in the output are known (`SeqPlace.v`, `SeqRows.v`), a blank line is printed exactly when one is read (`RereadPlace.v`), and the relation of C56 does the rest (`Reread.v`). That the parser finds that tree is a hypothesis. Refuted with comments: a blank behind a comment at the end of a line goes when formatting again.
C40 permutation and order of the pieces of the punctuation document.
C41 induction on the tree.
C42 the pipeline is invariant under permutation of the comment map (HashOrder.v: the map's listing order is an argument); the report's order is not.
C43 atoms rendering.
C44 finite table plus rejection of every other string.
C45 lines of a brace body are deeper (layout induction); refuted by a constructor whose first statement is a constructor invocation. Columns of members and closing braces in the output of the whole formatter: as for C32. Refuted by a statement behind else without braces.
C46 collection keeps source order (loop invariant on the waiting comments) unless two comments surround a bracket: refuted there, and for line comments before a separator.
C47 invariant over every `new`: the builder calls only carry fixed words or texts of nodes; printer content theorem.
C48 invariant over every `new`: every node whose comments are looked up is a code node, so collection recorded it.
C49 `new` is monotone in its fuel.
C50 lexicographic measure on the states of the program; case analysis of the reachable states for progress.
C51 the closing sign occurs in no printed line but the last, and there at its end; lines are joined by line feeds.
C52 stars and white space aside, each step of the JavaDoc normalisation keeps the characters.
C53 the flags of a comment equal the gap of the source rows; layout induction shows that gap is printed.
C54 `SpecWords.v` cuts a text into words and signs; an invariant over every `new` says where a construct may begin or end with a word, another over the printer that no break or space is lost; with the tokens of C35 the words of the output are those of the source. Comments (`WordsComments.v`): wherever the texts of a term can stand, its texts with comments can stand, because a comment begins with a sign and ends with a sign or a line break; with the arrangement of C05 the words are those of tokens and comments. Refuted for `a.super(x)`; signs may touch (`- -x`).
C55 the list of C05, restricted to names, literals and comments, is that of the source: induction over the tree, the comments between the children of a node going to the nearest child before or behind (`ArrangeOrder.v`). Refuted around the semicolon of an accessor; brackets and separators as in C46.
C56 two trees that are `alike` (`SpecLayout.v`) are related by a renaming of node numbers; every function of `Comments.v`, `New.v` and `Term.v` maps related arguments to related results (`LayoutNew.v`, `LayoutStep.v`, `LayoutFormat.v`). Refuted without the clause about the first row.
C57 each constructor of `New.v` is shown to find what it unwraps: the rules of `SpecTokens.v` give, by computation, the kinds and fields of the children of each kind of node (`ReadSafe.v`), and every constructor is proved for every node of its kinds under the hypothesis that it does not panic on the children (`ReadSafe2.v`); induction over the stack depth and C48 do the rest (`ReadSafe3.v`). `SpecSupported.v` names what the grammar allows and the constructors do not; refuted without it.
C58 one mark is put where the comments of one place are printed. The token theorem (C35) in its strict form, in which no mark may be left out, says that the document has one text more than the tokens of the source (`TokensSorts*.v`, `Loud.v`); if the comments of that place were not marked as printed, the texts would be those of a file without comments. `SpecLoud.v` lists the places the formatter does not look at; refuted at four of them.
C59 the same levels as for C17 (`TrimEdges.v`), refined: `Open` says that the text does not end with a line feed, `Wide` that it may end with one, and an empty line may only be printed at `Neat` or `Open`. The rendering keeps the number of line feeds at the end below three (`TrimFormat.v`, `feeds`). Refuted for block comments that hold empty lines.
C60 the same levels again, with the rule that a text which begins with a space is not printed behind a blank (`TrimEdges.v`, `apart`); the rendering then keeps spaces in a row to the beginning of a line (`TrimFormat.v`, `spacing`). False with a comment in front of `catch`.
C61 the levels of C59 once more: what is printed for a non-empty file is also fine behind a text that ends with two line feeds, and no third may follow one of them, so it does not begin with one (`TrimEnds.v`, `root_anywhere`); at the end of the file the level says that no line feed has been printed before the held break.
C62 composition: C58 gives a result, C18 the exit status, C19 the text in the file, C05 what the text is (`PropertiesWhole.v`).

## 3. Comparison with the project's own tests

The sandbox cannot run afmt, so the model is compared with the only recorded behaviour of the program there is: the
expected outputs in `/repo/tests`. `conformance/apex.py` parses an Apex source into a tree of the shape the
tree-sitter grammar gives (comments are placed in the smallest node around them), `conformance/gen.py` writes one
`Example` per test into `Conf*.v`: the model formats the tree of `NAME.in`, at width 80 and indent 2, into exactly the
text `NAME.cls`. All 301 tests that `tests/test.rs` runs are there (27 static, 60 comments, 214 prettier80) and all hold.
The six files of `tests/to-do` are not run by the project and are not included.

These Examples are tests of the model, not proofs of properties. They show that the model is faithful where the project
says what it expects. What stays trusted is the parser: the trees are ours, not tree-sitter's.

The same trees show how often the hypotheses of the theorems are met (deciders of the `Samples*.v` files, of 301):

| hypothesis | files |
|---|---|
| the tree follows the grammar of `SpecTokens` (C35, C05, C54, C55, C33, C36 to C39, C32, C45) | 299 |
| no comments at all | 232 |
| supported (C57) | 301 |
| comments only where the formatter looks for them (C58) | 301 |
| places simple / in order (C55) | 301 / 299 |
| quiet comments (C17, C59, C60, C61 with comments) | 282 |
| trimmed and tidy texts, filled clauses (C17) | 300 |
| single blanks inside texts / inside comments (C60) | 300 / 300 |

The two files outside the grammar have `@IsTest()` and `FROM Contact as c`, in which afmt drops `()` and `as`
(`C35_parentheses_refuted`, `C35_alias_refuted`). `conformance/hypotheses.py` counts them again, and
`ConfHypotheses.v` states for these very trees that the hypotheses hold: those of C17, C59, C60 and C61 together for 279
files, those of C05, C58 and C62 together for all 60 files of `tests/comments`.

## 4. Assumptions

`Print Assumptions` below each theorem of the `Properties*.v` files answers "Closed under the global context": no
theorem uses an axiom, of this development or of a library.

`coqchk` lists, for the whole loaded context, seven constants of the standard library's `Coq.ssr.ssrunder`
(loaded with the standard library, used by no theorem here):
`Under_rel.Over_rel`, `Under_rel.Under_rel_from_rel`, `Under_rel.over_rel`, `Under_rel.over_rel_done`,
`Under_rel.Under_rel`, `Under_rel.Under_relE`, `Under_rel.under_rel_done`.
