# Formal model of logreduce (logjuicer-rust) in Rocq/Coq 8.16.1

This file says what is modelled, how each property of `properties.jsonl` is
stated and proved, and what the result rests on.  Section 5 (trusted base) is
kept current with the proofs.

## 1. Layout

`rocq/theories/` has one folder-less group of files per component:

| component | model | specification | proofs | property theorems |
|---|---|---|---|---|
| line iterator (`iterator/`) | `IterModel.v`, `StackModel.v` | `IterSpec.v`, `IterReadSpec.v`, `StackSpec.v` | `IterProofs.v`, `IterSafety.v`, `IterMain.v`, `IterLex.v`, `IterRefute.v`, `IterReadProofs.v` | `P_Iter.v`, `P_IterReads.v`, `P_Stack.v` |
| trainer and processor (`model/src/process.rs`) | `ProcModel.v` | `ProcSpec.v`, `ProcStopSpec.v`, `ProcExactSpec.v` | `ProcWalk.v`, `ProcInv.v`, `ProcMain.v`, `ProcIndex.v`, `ProcResult.v`, `ProcSafe.v`, `ProcMore.v`, `ProcRefute.v`, `ProcStop.v`, `ProcStopSmall.v`, `ProcExact.v` | `P_Proc.v`, `P_ProcExact.v` |
| index (`index/`) | `IndexModel.v` | `IndexSpec.v` | `IndexFloat.v`, `IndexVec.v`, `IndexNum.v`, `IndexWords.v`, `IndexDist.v`, `IndexExact.v`, `IndexRef.v` | `P_Index.v` |
| tokenizer (`tokenizer/`) | `TokModel.v` (+ `Regex.v`) | `TokSpec.v`, `TokExactSpec.v` | `RegexFacts.v`, `TokRe.v`, `TokNoise.v`, `TokWords.v`, `TokWord.v`, `TokLine.v`, `TokExact.v` | `P_Tok.v`, `P_TokExact.v` |
| index names, sources (`model/src/{files,urls,reader}.rs`) | `FilesModel.v` | `FilesSpec.v` | `Utf8Facts.v`, `FilesNames.v`, `FilesSources.v` | `P_Files.v` |
| model, report, live output | `ReportModel.v` | `ReportSpec.v` | `ReportProofs.v`, `ReportMore.v`, `ReportRender.v`, `ReportLive.v` | `P_Report.v`, `P_Live.v`, `P_Complete.v`, `P_Same.v`, `P_Grown.v`, `P_Compare.v`, `P_Noise.v` |
| html page (`report/src/report.rs`) | `HtmlModel.v` | `HtmlSpec.v`, `HtmlReportSpec.v` | `HtmlProofs.v`, `HtmlPage.v` | `P_Html.v` |
| numbers, times and names on the page and in the live output | `ShownModel.v` | `ShownSpec.v`, `PageSpec.v`, `SummarySpec.v` | `ShownProofs.v`, `PageProofs.v` | `P_Shown.v`, `P_Summary.v`, `P_Page.v` |
| command line (`cli/src/main.rs`), inputs | `CliModel.v` | in `P_Cli.v` | `CliProofs.v` | `P_Cli.v` |
| a command as a whole: files and standard output (`cli/src/main.rs`) | `MainModel.v` | `MainSpec.v`, `DiffSpec.v`, `DiffPageSpec.v`, `RunsSpec.v`, `RunsPageSpec.v` | | `P_Main.v`, `P_GrownDiff.v`, `P_SameDiff.v`, `P_Diff.v`, `P_DiffPage.v`, `P_Runs.v`, `P_Named.v`, `P_Hidden.v`, `P_RunsPage.v`, `P_Path.v` |
| datasets (`cli/src/dataset.rs`) | `DatasetModel.v` | `DatasetSpec.v` | `DatasetProofs.v` | `P_Dataset.v` |
| generator (`generate/`) | `GenerateModel.v` | in `P_Generate.v` | in `P_Generate.v` | `P_Generate.v` |
| saved models and reports (`model/src/model.rs`) | `StoreModel.v` | `StoreSpec.v` | `StoreProofs.v` | `P_Store.v` |
| output modes, progress and the debug commands (`cli/src/main.rs`) | `OutModel.v` | `OutSpec.v` | | `P_Out.v` |
| matrices of the index and their bytes (`index/`), ChunkIndex, python module (`python/src/bindings.rs`) | `MatModel.v` | `MatSpec.v` | `MatProofs.v` | `P_Mat.v` |
| render command (`report/src/render.rs`), names of outputs | `RenderModel.v` | in `P_Render.v` | in `P_Render.v` | `P_Render.v` |
| crawler (`httpdir/`) | `CrawlModel.v` | `CrawlSpec.v` | `CrawlProofs.v`, `CrawlWalk.v`, `CrawlPanic.v` | `P_Crawl.v` |
| cache (`cache/`) | `CacheModel.v`, `SharedModel.v` | `CacheSpec.v`, `SharedSpec.v` | `CacheProofs.v`, `CacheOrigin.v` | `P_Cache.v`, `P_Shared.v` |
| reading while analysing (`model/src/process.rs` over `iterator/`, `cache/`) | `LazyModel.v` | `IterSpec.v`, `CacheSpec.v` | `LazyIter.v`, `LazyProofs.v` | `P_Replay.v` |
| zuul (`model/src/zuul.rs`, `zuul/`) | `ZuulModel.v`, `ZuulApiModel.v`, `BuildModel.v` | `ZuulSpec.v`, `BuildSpec.v` | `ZuulProofs.v` | `P_Zuul.v`, `P_ZuulApi.v`, `P_Build.v`, `P_BuildUrl.v` |

`P_*.v` files hold the property theorems and their last proof steps, examples showing that their hypotheses are met by non-trivial concrete
cases, and `Print Assumptions`.  `*Spec.v` files do not import the proofs and
speak about inputs and outputs only.  `*Model.v` files hold definitions only,
each with the file and lines of `/repo` it models.  The unit tests of the
repository that the model can express are replayed as `Example`s in
`Conformance.v` (these are tests of the model, not proofs of properties).

## 2. Modelling conventions

* Bytes and code points are `N`; text is a list of code points with its utf-8
  byte length, byte strings are lists of bytes.
* `usize` values that only count are unbounded; where wrap-around matters
  (`prev_pos + pos - 1` in the line iterator, `pos - 1 - before.len()` in the
  report) arithmetic is modelled modulo 2^64 with a flag for overflow checks.
* Panics (`unwrap`, `expect`, slicing, `panic!`, `todo!`) are explicit results.
* `&mut` is state passing, recursion over I/O is by fuel, with a distinct
  `OutOfFuel` result that theorems exclude.
* Calls to code outside the repository (regex engine on `\w`, hash32, SHA256,
  gzip, HTTP, file system, clock) are section parameters or relations; theorems
  quantify over them, restricted only by stated hypotheses.
* Single precision arithmetic is Flocq's `binary32` with rounding to nearest
  even.  sprs is not in the sandbox: whether its products accumulate with a
  fused multiply-add is a parameter (`fused`), theorems hold for both.
* Threads are interleavings of atomic steps of a transition system.

## 3. Per property plan

Refuted means: the general claim is false of the code, which is shown by a
theorem `..._refuted` with a concrete execution, next to the theorem for the
part that does hold.

| id | model and proof |
|---|---|
| C01 | Reader = list of read results. `drain` of the iterator equals the per-byte lexer of the whole stream (`IterSpec.segments`), by an invariant linking buffer, `prev_pos`, `escaped`, json state and the unread stream. |
| C02 | Invariant over all reachable states (also after errors); every `next` outcome checked. |
| C03 | Fuel sufficiency lemma with measure (unread events, buffer length); sticky `None`. |
| C04 | Invariant on the buffer length for every intermediate state. |
| C05 | Monotonicity and upper bound by invariant; exactness from C01's lexer; refuted in general with a backslash-newline. |
| C06 | Exact refinement, for every sequence of reads, of a reading machine without buffer or positions (IterReadSpec.v: collecting or skipping); prefix, order and contiguity follow.  The stronger claim is refuted three times (lost lines, lost beginning, NUL padding). |
| C07 | Same invariant as C01 with the stream ended by a failure. |
| C08 | Panic-freedom without overflow checks for all readers; with overflow checks an exact condition for the panic, and equality with the unchecked build otherwise. |
| C09 | From C01 and a characterisation of the lexer. |
| C10 | Refinement: batch algorithm = one-pass specification, for an arbitrary pointwise search. |
| C11 | Invariant over positions of left-overs and the pending anomaly. |
| C12 | The exact first and last line of every context, for any number of batches, as a function of the stream (ProcExactSpec.v); single-batch equality with the ideal contexts, refuted across batches (two theorems). |
| C13 | Same invariant as C10/C11; panics are explicit results. |
| C14 | The number of lines read equals, for every stream, that of a small machine that counts lines (ProcStopSpec.v); its meaning for a stream of one batch; the wider claim is refuted. |
| C15 | Invariant. |
| C16 | Prefix theorem; stronger claim refuted. |
| C17 | Invariant, and corollary for two sources sharing the set. |
| C18 | Invariant of the trainer over a list of streams. |
| C19, C20, C22, C23 | The matrix search equals, per target, a fold of `min` over the baseline rows; a set-based value (minimum over the rows) that determines the f32 result because no `-0.0` occurs. |
| C21 | Flocq error analysis of norm, normalisation and dot product; end-to-end corollaries with C10 and C18. |
| C24 | Range in f32 by the same analysis; Cauchy-Schwarz for the exact distance; a negative distance is exhibited by computation. |
| C25 | `IndexSpec.exact_distance` (real numbers, no vectors); both searches within an error bound of it; `sqrt(fl(n*n)) = n`. |
| C26 | Fuel = length; measure decreases on each recursive call. |
| C27 | Structure of `process`. |
| C28 | From the definition of the literal classes, context lemma through C27. |
| C29 | Induction over the recursion. |
| C30 | Error words are disjoint from each earlier rule (finite list, case variants by induction). |
| C31 | Case analysis of the rules that can precede `is_key_value`. |
| C32 | Derivative-based regular expressions, proved equal to a description of the noise lines; the converse because no other output contains `%G`. |
| C33, C34 | String induction; `.gz` claim refuted. |
| C35-C37 | List induction; panic cases refuted by computation. |
| C38, C39 | Refuted. |
| C40-C42 | Model with abstract sources; induction over the group list.  The fate of each source is exact (C42_exact); that every source is accounted for is refuted. |
| C43 | Arithmetic on contexts; refuted parts by computation. |
| C44-C46 | Transition system of the workers and of the iterator; invariant: what was sent, and what the sequential crawl of `CrawlSpec.v` finds for each pending job, is always the same multiset. Termination by a cost that each step lowers. Refuted parts by executions. |
| C47-C50 | State machine over inodes, names and open readers, with an abstract gzip codec (`gzip_codec`); invariants over all histories, crashes included; refuted parts by executions. |
| C51, C52, C66 | Score as a sum of points (`points`), the best eligible build by induction on the stable sort; panics explicit. |
| C53 | Path segments against the shape of the path; first and last occurrence of a text. |
| C54 | A command is a program over operations of its environment; theorems about all points of all executions, so also crashes; refuted parts by executions. |
| C55 | `remove_numbers` equals an inductive description; identifier words reach it unless recognised. |
| C56 | C41, C58 and C21 together; in `P_Compare.v`, because it needs the real numbers. |
| C57 | Everything is a function of the groups; the drain order only permutes them. |
| C58 | Induction over the sources of a group, with C18 for the content of the index. |
| C59 | Same analysis relation as C41, with an empty set of known lines; inclusion by monotonicity. |
| C60 | C56 with the modelled tokenizer, C28, C32 and C55. |
| C61 | Induction over the sources of a group: a known line above the threshold has been reported before. |
| C62 | Case analysis. |
| C63 | Induction over the page. |
| C64 | Same as C44; refuted parts by concrete sites and executions. |
| C65 | Same as C47, with bincode modelled byte by byte. |
| C67 | `get_build` as a sequence of events of the cache model; uses C47 and C48. |
| C68 | `serde_json::Value` as an inductive type, the derived decoder field by field. |
| C69 | The same executions as C54, with events for what is resolved, discovered, learnt from and analysed. |
| C70 | The page as a tree of nodes; its text is read back by a small html tokenizer (`HtmlSpec`); induction over trees. The html library is a parameter (texts verbatim or escaped). |
| C71 | The command function by function over the model of C40 to C43; `read_dir` gives names in any order. Uses C14 (where reading stops) and C16. |
| C72 | The random generator is any type with draws in range; induction over words and lines; read back with C01. |
| C73-C75 | bincode byte by byte as combinators of codecs; five laws (round trip, refusal of every proper prefix, progress, soundness, what can be saved) proved for each combinator, then for each type; gzip as in C47. |
| C76 | `Path::set_extension` on bytes against the components of the path; the render command and the command line as relations. |
| C77 | The f32 arithmetic of the percentage and of the seconds on Flocq's binary32, with error bounds over the reals; the calendar by counting days, against day numbers of the Gregorian calendar; the table is read back from the page with the tokenizer of C70; composed with C73 and C76 for a saved report; `SummarySpec.v`: what the texts of the table say of a report. |
| C78 | The distance in 99ths and the colour as f32 products and conversions, for every anomaly that a report can hold (uses C19 and C42); the lines of the page are read back with their attributes. |
| C79 | All elements with a name are read back from the page of C70; induction over trees and logs. |
| C80 | The triplets of a matrix are in order, so that its three arrays are its rows one after the other; induction over the rows. The codec is lawful (as in C73); what sprs checks is equivalent to being such rows. |
| C81 | Case analysis over calls and capsules, with C25 for the distances and C80 for the bytes. |
| C82 | The search over the arrays equals the search over the rows, batch by batch; C73 and C75 with the codec of C80. |
| C83 | Induction over the sources: the pieces written in each mode against the rows of C59. |
| C84 | Insertion sort gives the unique sorted permutation of the groups of C36; the loop of debug-iterator against the lines of C01. |
| C85 | The opening tags and the nesting of the tokens of C70, by induction over trees; those of the logs are chosen by name and class. |
| C86 | The analysis of C40 and C59 with any kind of index (ReportModel is generic in it); two models with the same names, sources and searches give equal reports; C73 and C82 for the file. |
| C87 | The script (`ClickModel.v`) over the elements that `DomSpec.v` reads from the page: at most one handler runs for a click; an invariant over all sequences of clicks. |
| C88 | `MainModel.v` gives every operation of the command (`CliModel.v`) its effect on the bytes of files and on the standard output (a relation `does`); inversion over the command, with C59, C83, C86, C74, C57 and C56 for its operations. |
| C89 | `TokExactSpec.v` writes the rules as an inductive relation with characters and lists only; each test of the model is shown to decide its condition (derivatives for the expressions, C26 for the recursion), then induction over the recursion one way and over the derivation the other. |
| C90 | `DiffSpec.v`: what the bytes of a log, its lines and the printed text are. Composition of C88 (commands), C01 (lines), C58 (training), C20 (order of training), C12 (exact contexts) and C83 (standard output) for one index, which `lookup_or_single` gives for every name; the text by induction over the anomalies. |
| C91 | `StackModel.v`: `next` with a bounded number of nested calls, which is the fuel of `run`; monotonicity in the fuel; induction over the stack for empty lines, an invariant over reachable states for files of plain lines. |
| C92 | `DiffPageSpec.v`: the lines of the page and their numbers. Composition of C88 (the report and its file), C01, C58, C20, C12 and C15 (what is found), C77, C78 and C85 (what a browser sees of the page); for plain files the line numbers are counted by induction over the bytes, so that none of the subtractions of the renderer underflows. |
| C93 | `RunsSpec.v`: the logs of a run, which logs a log is compared with, what each log of the target gives. Composition of C33, C35, C36, C37 (the logs and their names), C58, C18, C20 (the model, for any order of the groups), C40 (the index for a name), C12 (what is found) and C88 (the command); induction over the trees, the groups and the logs of the target. |
| C94 | `RunsPageSpec.v`: the logs of the target by name, what is found in the logs of a name one after the other, what the report says of it, the sections and links of the page. Composition of the lemmas of C93 with C12, C15 and C17 (the set of lines already seen goes from log to log of a name), C88 (the report of a command), C77, C78, C79, C70 and C85 (the page); induction over the logs of a name and over the names in any order. |
| C95 | `RunsSpec.v`: `compares`, the commands with the logs that they compare, and `without_baselines`. Equivalence of two programs of the model under the relation `does`, by inversion; C93 and C94 are stated for every command that `compares` relates to its logs. |
| C96 | `BuildSpec.v`: how a server reads a query (`form_query`), what an answer shows of a build, the build of a page, the best sample. The query is read in one way, by induction on its parts; decoding is C68 both ways; the sample is the first of the best ones of a stable sort, for answers with all their fields; the messages from the order of the sorted samples. Composed with C53 (the address of the api) and C93 (what is printed). |
| C97 | `LazyModel.v` runs the processor and the trainer on the state of the line iterator and the reads that are left, instead of on a list of lines. `LazyIter.v`: the iterator consumes a prefix of the reads, and as long as reads are left what comes after them does not matter. `LazyProofs.v`: the lazy run gives what the run on the list gives (simulation), leaves a suffix of the reads and is the same without it; an analysis leaves at least what a training leaves. Composed with C01 (sizes of reads do not matter) and C47 (what is stored). |
| C98 | `alike` in `P_Named.v`: the same names, and for each name the same tokenized lines. The words of C93 determine findings and text (positions sorted, contexts exact), the distance depends on the set of lines only (C20) and does not grow with it (C23). Composed with C93 for both commands. |
| C99 | Two worlds of `MainModel.v` that differ in what `open` gives. Training depends on tokenized lines and lengths only (induction over lines, sources, groups); what analyses a content depends on the sources of its listing only; the program of each command analyses only the content of its target (induction on `does`). |
| C100 | `SharedModel.v`: the steps of `CacheModel.v` in any process, the creation of a file that exists by now, the end of some processes. Invariant: the first m bytes of the file are those of the archive, where m is how far the last creator has written; every write of another reader of the url writes bytes of the same archive at their place. |
| C101 | A simulation between two runs of `ProcModel.v` whose lines are pairwise alike: buffers, contexts and findings correspond, all else but the bytes counted is equal; through `do_search`, `read_anomalies` and `process_all`, then the loops over sources and groups of `ReportModel.v`, and the rows. For a comparison from the command line, with C90: the positions that are found depend on the tokenized lines. |
| C102 | From the exact contexts (C12): positions, starts of batches and starts of contexts depend only on the lines before; where the search of the last batch ends does not move back when lines are appended (a batch goes on or ends behind them). With C90 for the text of a comparison; the lines of bytes that end with a line are the first lines of any bytes that begin with them. |

## 4. Not modelled

The line breaks of the html page, what is on the standard error output, the
tracing that LOGREDUCE_LOG asks for (the information and errors that are traced without it are in
`MainModel.v`, without their time), the
clap argument parser, TLS/HTTP, the conversion of python values, serde encodings other than
stated (bincode is modelled), lack of memory, wall-clock time, stack depth (but for the nested calls of the line iterator, `StackModel.v`), memory reclamation inside the `bytes` crate.

## 5. Trusted base

* Coq's kernel (and `coqchk`); `vm_compute` is used for small examples only.
* The correspondence between the Rust sources and the model, as documented in
  the comments of the `*Model.v` files.  Outside code is modelled by its
  documentation: itertools (`sorted_by`, `dedup_by`), sprs (`CsVec`, `TriMat`,
  sparse products and dot products in increasing index order), fxhash (any
  function), `f32::min`/`max`, `bytes::BytesMut`, std collections, and the regex
  crate: a match is the language of the expression (`Regex.lang`), `.` is any
  character but newline, `(?i)` folds ASCII letters (for patterns without the
  ASCII flag also the Kelvin sign and the long s), `\\w` and `\\b` use the
  parameter `word_char`, which is arbitrary.  `std::path` (components, file name,
  parent, extension) is modelled for Unix; walkdir is a traversal of a finite
  tree that does not change while it is read; a `Url` is its ASCII text;
  flate2's `GzEncoder` writes its last bytes when dropped and ignores errors there.  The thread pool (crate threadpool) starts jobs in order, at most as
  many as threads; each of its counters is read in one step; `std::sync::mpsc` is an unbounded
  ordered channel; a site answers the same page for the same url during a crawl, and a url is
  its origin, path and suffix.  The cache has one process at a time (but for the races that are
  refuted); bytes that a process wrote survive it; a `GzEncoder` whose write failed writes
  nothing more; the digest of urls is any function to 64 characters; gzip is any codec with
  the laws `gzip_codec`.  For zuul: `sorted_by` is a stable sort, dates are days and their
  difference fits an i32, json values are trees (a struct given as an array is left out), the
  decoder reads its answer to the end when it succeeds and fails when its reader fails.
  `serde_yaml` and `rand` are parameters.  bincode 1.3 (fixed integers, little endian, lengths of eight
  bytes, tags of four), serde's codecs of paths, times and durations, and its buffer, which is
  as long as announced, are modelled by their documentation; the text of a url or date that was
  parsed is parsed again to the same (`good_urls`, `good_dates`), the codec of matrices has the laws
  `good_matrices`, which are proved in `MatProofs.v` for the arrays of sprs (`CsMatBase`: storage, shape,
  positions, indices, values), whether it checks what it reads or not.  pyo3's `PyCapsule::reference` does not look at what a capsule holds; a
  panic becomes an exception.
  The conversions between f32 and usize, the formats of `core::fmt` (the nearest decimal; any choice
  between two that are as near), `Duration::as_secs_f32` and chrono's dates (any set of years) are
  modelled by their documentation.
  html-builder writes tags, attributes and texts in the order in which they are added.
  jQuery: a handler runs for the elements that have the class or id when the page is loaded, for the
  clicked element first and then for those that it is in; `find` is the elements inside, `toggle` looks at
  the display of the element itself; the other scripts and the stylesheets of the page do nothing but hide
  what has the class `hidden` and, until it is toggled, the id `debuginfo`.
* In `MainModel.v` the logs do not change while a command runs and are not among the files that it
  writes; discovery, reading and crawling are functions there, each of them modelled elsewhere.
* Axioms, as printed by `Print Assumptions` at the end of each `P_*.v`:
  * `P_Iter.v`, `P_IterReads.v`, `P_Proc.v`, `P_ProcExact.v`, `P_Tok.v`, `P_TokExact.v`, `P_Files.v`, `P_Report.v`, `P_Live.v`, `P_Complete.v`, `P_Grown.v`, `P_Cli.v`, `P_Crawl.v`, `P_Cache.v`, `P_Replay.v`, `P_Shared.v`, `P_Stack.v`, `P_Zuul.v`, `P_ZuulApi.v`, `P_Build.v`, `P_Html.v`, `P_Form.v`, `P_Click.v`, `P_Generate.v`, `P_Store.v`, `P_Render.v`, `P_Dataset.v` (but for `C71_same_content`): none (closed under the global context).
  * `P_Index.v`, `P_Compare.v`, `P_Noise.v`, `P_Same.v`, `P_Shown.v`, `P_Page.v`, `P_Summary.v`, `P_Mat.v`, `P_Out.v`, `P_Saved.v`, `P_Diff.v`, `P_GrownDiff.v`, `P_SameDiff.v`, `P_DiffPage.v`, `P_Runs.v`, `P_Named.v`, `P_Hidden.v`, `P_RunsPage.v`, `P_Path.v`, `P_BuildUrl.v`, `P_Main.v` (but for the theorems there that say
    nothing about numbers) and `C71_same_content`: the standard library's
    `ClassicalDedekindReals.sig_not_dec`, `ClassicalDedekindReals.sig_forall_dec`,
    `FunctionalExtensionality.functional_extensionality_dep` and
    `Classical_Prop.classic`, which come with the real numbers and Flocq's
    correctness theorems; `words_meaning` needs none.
