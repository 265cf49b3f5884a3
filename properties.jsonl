{"id": "C01", "title": "Line splitting does not depend on how the reader delivers its bytes", "statement": "Iterating BytesLines over a reader until it returns None yields exactly the non-empty segments of the byte stream delimited by newline, by the two characters backslash-n and (json mode) by an unquoted , [ ] { or }, in order, whatever the sizes of the individual read() results, provided that at no read boundary more than 6000 bytes of an unfinished segment are pending; segments longer than 6000 bytes are left out.", "quantifier": "every byte stream, every way of cutting it into reads of 1..8192 bytes, both json modes", "why_tests_cant": "There are 2^(n-1) ways to cut an n-byte stream into reads and a separator may straddle any cut (also between the backslash and the n); tests use one Cursor that returns everything at once.", "anchors": ["iterator/src/iterator.rs: BytesLines::next, read_slice, get_slice, find_next_line"]}
{"id": "C02", "title": "Every yielded line has between 1 and 6000 bytes", "statement": "No call to next() of BytesLines ever returns an empty line or one longer than 6000 bytes, on any reader, including ones that fail, return 0 early, or contain over-long lines.", "quantifier": "every reader behaviour (any sequence of data, zero-length reads and errors), every number of next() calls", "why_tests_cant": "The bound must hold in the recovery path for over-long lines and after errors, for unbounded histories.", "anchors": ["iterator/src/iterator.rs: get_slice, read_slice, drop_until_next_line"]}
{"id": "C03", "title": "Iteration terminates and the end is final", "statement": "On a finite reader each next() call returns after finitely many steps, the iterator reaches None after finitely many calls, and once the reader has ended and None was returned, every later call returns None.", "quantifier": "every finite reader behaviour, every iterator state reachable by next()", "why_tests_cant": "next() is mutually recursive through read_slice, get_slice and drop_until_next_line; only an induction over the remaining input shows it cannot loop.", "anchors": ["iterator/src/iterator.rs: next, read_slice, get_slice, drop_until_next_line"]}
{"id": "C04", "title": "The line buffer is bounded", "statement": "Between and during calls the internal buffer of BytesLines never holds more than 6000 + 8192 bytes, whatever the reader returns.", "quantifier": "every reader behaviour and number of next() calls", "why_tests_cant": "'Constant memory usage' is a claim about all inputs and all histories.", "anchors": ["iterator/src/iterator.rs: module documentation lines 8-11, read_slice, get_slice"]}
{"id": "C05", "title": "Line numbers: positive, non-decreasing, never beyond the true line number, and exact when no newline is escaped", "statement": "The line numbers returned by BytesLines start at 1 or more, never decrease, and never exceed one plus the number of newline bytes received so far. When no newline is preceded by an unescaped backslash (and no over-long line has to be drained), the number of a line is exactly one plus the number of newlines before it. The same claim without that condition is false: a line ending in a backslash shifts every later number.", "quantifier": "every byte stream and every read segmentation", "why_tests_cant": "The numbers depend on the whole history of separators across read boundaries.", "anchors": ["iterator/src/iterator.rs: update_line_counter, find_next_line"]}
{"id": "C06", "title": "What is yielded when over-long lines are dropped", "statement": "For every sequence of read results BytesLines yields exactly what this machine yields: segments are split as in C01; when more than 6000 bytes of an unfinished segment are pending at the end of a read, they are forgotten and reads are skipped up to the next separator; what follows that separator in the same read is thrown away if the read filled the 8192 byte buffer, and is otherwise collected together with NUL bytes that fill it up to 8192. So all lines finished before the first over-long one are yielded, no line over 6000 bytes is, and apart from NUL bytes every yielded line is a contiguous piece of the stream, in order. (The stronger claim that every other line is still yielded unmodified fails: lines that follow in the same read are lost, the next one can lose its beginning, NUL padding is yielded as log content.)", "quantifier": "every byte stream containing over-long segments, every read segmentation", "why_tests_cant": "The failing paths need a particular alignment of an over-long line with the 8192-byte reads.", "anchors": ["iterator/src/iterator.rs: get_slice Step J, drop_until_next_line"]}
{"id": "C07", "title": "Complete lines received before a read error are delivered before the error", "statement": "If the reader fails after delivering some bytes, the iterator first yields every complete (separator-terminated) non-empty segment of those bytes and only then returns the error.", "quantifier": "every byte stream, segmentation, and failure point", "why_tests_cant": "The failure can hit at any byte.", "anchors": ["iterator/src/iterator.rs: read_slice Err branch"]}
{"id": "C08", "title": "BytesLines never panics", "statement": "No call to next() panics: every slice, split and advance stays within the buffer. With overflow checks disabled this holds for every reader; with overflow checks (debug builds) it panics exactly when a read made while an over-long line is skipped starts between the backslash and the n of a separator, and otherwise yields the same as without checks.", "quantifier": "every reader behaviour, both overflow-check modes", "why_tests_cant": "The panic needs a backslash as the last byte of an 8192-byte drained read and n as first byte of the next.", "anchors": ["iterator/src/iterator.rs: find_next_line line 253, get_slice, drop_until_next_line"]}
{"id": "C09", "title": "JSON mode never splits inside a string", "statement": "In json mode two characters that are both inside the same double-quoted string, with no newline or backslash-n between them, end up in the same line; and outside strings no yielded line contains a comma, bracket or brace.", "quantifier": "every byte stream in json mode", "why_tests_cant": "Quote state is carried across lines, escapes and read boundaries.", "anchors": ["iterator/src/iterator.rs: match_json_kv, find_next_line"]}
{"id": "C10", "title": "Exactly the new lines above the threshold are reported", "statement": "Draining a ChunkProcessor over a stream of valid UTF-8 lines yields, in stream order, one anomaly for each line whose tokenized form was not seen earlier (in this stream or in the caller's skip set) and whose distance exceeds 0.3, with that line's text, number and distance, and nothing else; the 512-line search batches and the 5120-line duplicate limit have no influence.", "quantifier": "every list of lines, tokenizer, distance function and initial skip set", "why_tests_cant": "Batch boundaries fall at every 512th unique line and interact with duplicates; the tests only use six lines.", "anchors": ["model/src/process.rs: ChunkProcessor::read_anomalies, do_search_anomalies"]}
{"id": "C11", "title": "Context lines are genuine neighbours", "statement": "For every anomaly yielded, the before-context is a run of at most 3 lines that immediately precede it in the stream, the after-context is a run of at most 3 lines that immediately follow it, and neither contains a line that is itself reported.", "quantifier": "every list of lines, tokenizer and distance function", "why_tests_cant": "Contexts are assembled from the current batch, the left-overs of the previous batch and an anomaly carried across batches.", "anchors": ["model/src/process.rs: do_search_anomalies, reset, collect_before"]}
{"id": "C12", "title": "Contexts are maximal and do not overlap", "statement": "The after-context contains all lines up to the next anomaly, the end, or 3 lines; the before-context contains all preceding lines back to the previous anomaly's context, or 3 lines; no line appears in two contexts. True when the stream fits in one batch; false across batches (left-overs repeat lines already shown, and the after-context is cut when the rest of the stream only has known lines). For any number of batches the exact first and last line of every context is a function of the stream, and only lines of an earlier batch that no new line of that batch follows can be in two contexts.", "quantifier": "every list of lines, tokenizer and distance function", "why_tests_cant": "The failures only appear past 512 unique lines.", "anchors": ["model/src/process.rs: do_search_anomalies lines 270-286, reset, read_anomalies lines 184-192"]}
{"id": "C13", "title": "Anomaly extraction never panics", "statement": "Reading anomalies never reaches the 'Could not find target_coord' panic, an out-of-range slice or a failed UTF-8 unwrap.", "quantifier": "every stream of lines (also invalid UTF-8 ones), every index whose search returns one distance per target", "why_tests_cant": "The panic is guarded by an invariant between three vectors that evolve over the whole stream.", "anchors": ["model/src/process.rs: do_search_anomalies lines 209, 216, 262-267, collect_before, reset"]}
{"id": "C14", "title": "Where processing stops at logreduce's own output", "statement": "A marker is a line containing 'TASK [log-classify'. Reading ends exactly at the first marker at which no line to report waits; a line to report waits until the end of the first batch that ends three or more lines behind it (a batch ends after 512 new lines, or at a known line once it has more than 5120 lines) or until a marker. So in a stream of a single batch, reading ends exactly at the first marker with nothing to report between it and the marker before it. What is reported is exactly what is to be reported of the lines read, and lines after a marker can be reported (the wider claim, that no line after a marker is ever reported, fails).", "quantifier": "every stream of lines", "why_tests_cant": "The failure needs an anomaly before the marker and a distinct one after it.", "anchors": ["model/src/process.rs: read_anomalies lines 152-155, Iterator::next"]}
{"id": "C15", "title": "Line and byte counters are exact", "statement": "After draining, line_count is the number of lines delivered by the line iterator and byte_count the sum of their byte lengths; for the trainer likewise over all added readers.", "quantifier": "every stream of lines", "why_tests_cant": "Counters are updated on several paths with early exits.", "anchors": ["model/src/process.rs: ChunkProcessor.line_count, byte_count, ChunkTrainer.line_count"]}
{"id": "C16", "title": "A failing source keeps what was already found", "statement": "When the stream fails (read error or invalid UTF-8), the anomalies yielded before the error are exactly a prefix of those of the error-free stream, and the error is returned. The stronger claim that every anomaly among the lines before the error is yielded is false: the open batch and the anomaly awaiting context are lost.", "quantifier": "every stream of lines and failure point", "why_tests_cant": "The failure can occur at any line relative to the batches.", "anchors": ["model/src/process.rs: read_anomalies lines 144-147"]}
{"id": "C17", "title": "The skip set records exactly what was read", "statement": "After draining, the caller's skip set contains exactly its initial content plus the tokenized form of every line read, so that a later source of the same group reports no line whose tokenized form already occurred.", "quantifier": "every stream of lines and initial skip set", "why_tests_cant": "It is mutable state shared by an unbounded sequence of sources.", "anchors": ["model/src/process.rs: skip_lines", "model/src/model.rs: Model::report lines 472-513"]}
{"id": "C18", "title": "Every distinct baseline line is indexed exactly once", "statement": "After adding any sequence of readers and calling complete(), the batches given to the index are non-empty, have at most 512 lines, all but the last have exactly 512, and their concatenation is the list of distinct tokenized lines in order of first occurrence, also when some reader fails midway (then with the lines before the failure).", "quantifier": "every sequence of streams, tokenizer and failure points", "why_tests_cant": "Batches span readers; loss or duplication would only show at multiples of 512.", "anchors": ["model/src/process.rs: ChunkTrainer::add, complete", "model/src/model.rs: Index::train"]}
{"id": "C19", "title": "One distance per target, independent of its neighbours", "statement": "search_mat and search_mat_chunk return one distance per target line, and the distance of a line does not depend on the other target lines of the call.", "quantifier": "every list of baseline chunks and targets, every hash function", "why_tests_cant": "All combinations of targets.", "anchors": ["index/src/index.rs: search_mat, search_mat_chunk, cosine_distance, cosine_distance_chunk"]}
{"id": "C20", "title": "The number and order of baseline chunks is irrelevant", "statement": "search_mat_chunk over any partition of the baseline lines in chunks, in any order, returns bit for bit what search_mat returns over all of them.", "quantifier": "every list of baseline lines, partition, permutation, targets", "why_tests_cant": "All partitions and permutations.", "anchors": ["index/src/index.rs: search_mat, search_mat_chunk"]}
{"id": "C21", "title": "A known line is never an anomaly", "statement": "A target line whose tokenized form occurs in the baseline gets a distance below the 0.3 threshold in single precision arithmetic, whatever the other baseline lines, so it is never reported.", "quantifier": "every line (up to the 260000 hash buckets), every set of baseline lines, every hash function", "why_tests_cant": "Rounding errors accumulate with the number of words; all lengths have to be covered.", "anchors": ["index/src/index.rs: vectorize, create_mat, cosine_distance_chunk", "model/src/process.rs: THRESHOLD"]}
{"id": "C22", "title": "A line sharing no feature with the baseline is always an anomaly", "statement": "If no word bucket of the target line occurs in any baseline line the distance is exactly 1.0, so the line is reported; in particular with an empty baseline every line has distance 1.0.", "quantifier": "every target, baseline set and hash function", "why_tests_cant": "All inputs.", "anchors": ["index/src/index.rs: cosine_distance, cosine_distance_chunk"]}
{"id": "C23", "title": "Training on more baselines never adds anomalies", "statement": "Adding baseline lines never increases the distance of any target.", "quantifier": "every baseline list, every extension, every target", "why_tests_cant": "All extensions.", "anchors": ["index/src/index.rs: search_mat_chunk"]}
{"id": "C24", "title": "Distances lie between 0 and 1", "statement": "Every distance returned by search_mat and search_mat_chunk is a finite number at most 1 and at least -0.02 (never NaN or infinite: no division by zero); search stays in [0,1]; the exact cosine distance they approximate is in [0,1]. That search_mat never returns a negative distance is false.", "quantifier": "every target and baseline list, every hash function", "why_tests_cant": "All inputs, including rounding for every word count.", "anchors": ["index/src/index.rs: search, search_mat, similarity"]}
{"id": "C25", "title": "The reference search and the matrix search agree", "statement": "search(index(B), l) and the entry of search_mat(index_mat(B), [l]) both approximate the exact cosine distance: search within 3/2^23, search_mat within (n+10)/2^23 where n is the number of distinct buckets of l, so they differ by at most (n+13)/2^23; search returns exactly 0.0 when l occurs in B.", "quantifier": "every baseline list and line, every hash function", "why_tests_cant": "All inputs.", "anchors": ["index/src/index.rs: search, search_mat, similarity"]}
{"id": "C26", "title": "Tokenizing terminates with output linear in the input", "statement": "process(line) returns for every line; the recursion on a word only visits strictly shorter words, and the output is at most a constant factor longer than the line.", "quantifier": "every Unicode line", "why_tests_cant": "do_process recurses on pieces obtained by nine different splitting rules.", "anchors": ["tokenizer/src/tokenizer.rs: process, do_process"]}
{"id": "C27", "title": "Tokenizing is compositional over words", "statement": "For a line that is not globally filtered, the output is obtained by tokenizing each of the words separated by spaces, tabs and literal \\n or \\r on its own, and joining the non-empty results by single spaces; so two unfiltered lines whose words are pairwise token-equal tokenize equally.", "quantifier": "every line", "why_tests_cant": "All word combinations.", "anchors": ["tokenizer/src/tokenizer.rs: process, words, do_process"]}
{"id": "C28", "title": "Volatile words are erased", "statement": "Any two words (without surrounding punctuation) recognised by the same literal class, e.g. dates, hex ids, urls, hashes, base64, paths, refs, cookies, tokenize identically, so lines that differ only in them tokenize identically.", "quantifier": "every pair of words in the same class, every surrounding line", "why_tests_cant": "The classes are infinite languages.", "anchors": ["tokenizer/src/tokenizer.rs: parse_literal, is_date, is_hash, is_uid, is_cookie, is_uuid, is_url, is_random_path, is_refs, is_base64"]}
{"id": "C29", "title": "No input digit survives tokenization", "statement": "The digits in the output of process stem only from the literal token %BASE64: the ASCII digits of the output read in order form a repetition of 64.", "quantifier": "every line", "why_tests_cant": "All inputs through every recursive branch.", "anchors": ["tokenizer/src/tokenizer.rs: remove_numbers, do_process"]}
{"id": "C30", "title": "Error words are kept and amplified", "statement": "If a line is not globally filtered and one of its words, stripped of quotes and punctuation, is (in any letter case) one of the listed error words, then the output contains the word and its four amplified variants.", "quantifier": "every line, every case variant", "why_tests_cant": "An earlier rule might capture the word; all rules precede it.", "anchors": ["tokenizer/src/tokenizer.rs: is_error, push_error, do_process, parse_literal"]}
{"id": "C31", "title": "Values of identifying keys are not copied to the output", "statement": "For a word key=value (or key:value) whose key is an identifier containing id, key, ref, region, token, secret or password in any case, the output for the word is, for every value, one of a fixed set of texts that depends only on the key, up to repeated %PID markers.", "quantifier": "every such key and every value", "why_tests_cant": "All values; earlier rules are tried first on the whole word.", "anchors": ["tokenizer/src/tokenizer.rs: is_key_value, is_key_for_id, do_process"]}
{"id": "C32", "title": "Global filter", "statement": "A line without inner whitespace always tokenizes to %GL_FILTER, as does every line matched by the listed noise patterns; surrounding whitespace never matters.", "quantifier": "every line", "why_tests_cant": "Infinite language.", "anchors": ["tokenizer/src/tokenizer.rs: global_filter, process"]}
{"id": "C33", "title": "Index names ignore digits and rotation suffixes", "statement": "Outside the special groups the index name only has ASCII letters and / . _ -; inserting digits anywhere in the file name (where this does not create a special group) or appending a numeric or date rotation suffix does not change it. The claim for compressed rotated files (name.1.gz versus name) is false.", "quantifier": "every relative path and suffix", "why_tests_cant": "Infinite set of names.", "anchors": ["model/src/files.rs: IndexName::from_path"]}
{"id": "C34", "title": "Kubernetes, pod and qemu files are grouped by service", "statement": "Files named k8s_<service>-<anything>, pvc-<anything>, under pod/ (up to the first dash) or qemu/instance-<anything> map to an index name that does not depend on the variable part nor (where applicable) on the directory.", "quantifier": "every service name and variable part", "why_tests_cant": "Infinite set of names.", "anchors": ["model/src/files.rs: is_k8s_service, take_until_pod_uuid, IndexName::from_path"]}
{"id": "C35", "title": "Only relevant sources are analyzed, in order, and errors are not hidden", "statement": "get_sources returns exactly the listed sources that do not end in one of the excluded suffixes (optionally followed by .gz) and do not contain /etc/, in listing order; it fails if the listing has any error or if nothing remains.", "quantifier": "every listing", "why_tests_cant": "All listings and error positions.", "anchors": ["model/src/model.rs: Content::get_sources, Source::is_valid"]}
{"id": "C36", "title": "Grouping is a partition", "statement": "group_sources puts every source of every baseline in the group of its index name and in no other, keeping the order within a group, and creates no empty group.", "quantifier": "every list of contents", "why_tests_cant": "All lists.", "anchors": ["model/src/model.rs: Content::group_sources"]}
{"id": "C37", "title": "Relative names are well defined", "statement": "Computing the relative name of a source never panics: true for local files listed under a UTF-8 directory with UTF-8 names; false for a local file with a non-UTF-8 name and for a remote link outside the crawled directory.", "quantifier": "every directory, file name and crawled link", "why_tests_cant": "All names.", "anchors": ["model/src/model.rs: Source::get_relative", "model/src/files.rs: Source::dir_iter", "model/src/urls.rs: Source::httpdir_iter"]}
{"id": "C38", "title": "Any crawled remote source can be opened", "statement": "Opening a remote source never panics. (Fails: for a source found by crawling a directory, urls shorter than 42 bytes make the hard-coded slice panic.)", "quantifier": "every url and prefix", "why_tests_cant": "All url lengths.", "anchors": ["model/src/urls.rs: Source::url_open"]}
{"id": "C39", "title": "Compressed local files are decompressed", "statement": "A local file whose name ends in .gz is read through the gzip decoder. (Fails for every path: the extension is compared with '.gz' but never contains a dot.)", "quantifier": "every path", "why_tests_cant": "All paths.", "anchors": ["model/src/reader.rs: from_path"]}
{"id": "C40", "title": "A source is compared with the index of its name, or with the only index", "statement": "get_index returns the index stored under the given name if there is one; otherwise the only index if the model has exactly one; otherwise nothing.", "quantifier": "every model and name", "why_tests_cant": "All maps.", "anchors": ["model/src/model.rs: Model::get_index, lookup_or_single"]}
{"id": "C41", "title": "Report totals are consistent", "statement": "total_anomaly_count is the number of anomalies in all log reports, every log report has at least one anomaly and has an index report for its index name, and total_line_count is at least the sum of the line counts of the log reports.", "quantifier": "every model, target and source behaviour", "why_tests_cant": "Sums over all sources with several error exits.", "anchors": ["model/src/model.rs: Model::report"]}
{"id": "C42", "title": "Every target source is accounted for", "statement": "A source of the target with no index is listed under index_errors. One with an index, when every source before it with the same name can be opened, is analyzed if it can be opened and listed in read_errors otherwise. Behind a source of the same name that cannot be opened nothing in the report is about it: the rest of the group is silently skipped (so the wider claim, that every source is accounted for, fails).", "quantifier": "every model, target and source behaviour", "why_tests_cant": "All failure positions.", "anchors": ["model/src/model.rs: Model::report line 510", "cli/src/main.rs: process_live line 343"]}
{"id": "C43", "title": "Reported line numbers in the rendered report are right", "statement": "The html report shows each context line with its own line number. True when the lines around an anomaly are numbered consecutively; false (and the subtraction underflows) when context lines are sub-lines of one line or blank lines were skipped; the live output is off by one for all context lines.", "quantifier": "every report", "why_tests_cant": "All contexts.", "anchors": ["report/src/report.rs: render_lines, render_context", "cli/src/main.rs: process_live print_anomaly"]}
{"id": "C44", "title": "Crawling gives the same files for every thread schedule", "statement": "Crawler::list fails iff some reached page fails, and otherwise returns the same multiset of urls whatever the interleaving of the worker threads: the files reachable through directories with strictly growing path length, not ending in /etc/.", "quantifier": "every web (function from url to page), every interleaving of any number of workers", "why_tests_cant": "The number of interleavings is exponential.", "anchors": ["httpdir/src/httpdir.rs: Crawler::list, Crawler::process, Visitor::visit"]}
{"id": "C45", "title": "Crawling terminates on every finite site", "statement": "If only finitely many pages exist the crawl finishes whatever the links, including cycles and parent links, and only pages reached through growing paths are fetched. (Pages can be fetched more than once: a site with n+1 pages can cost 2^(n+1)-1 requests.)", "quantifier": "every finite web, every schedule", "why_tests_cant": "All link graphs.", "anchors": ["httpdir/src/httpdir.rs: Visitor::visit, Crawler::process"]}
{"id": "C46", "title": "The crawling iterator loses nothing", "statement": "Crawler::walk yields every file that Crawler::list would return before returning None. (Fails: a worker may send its last files and finish between the empty-channel check and the worker-count check.) Everything it does yield is a file list would return, with at most the same multiplicity. It always ends after the workers have, also when a worker panics; a panic is yielded as an error, at most once, and is not missed when the workers have stopped before the channel is found empty.", "quantifier": "every web and every interleaving of iterator and workers", "why_tests_cant": "The loss needs a precise interleaving.", "anchors": ["httpdir/src/httpdir.rs: CrawlerIter::next, is_done"]}
{"id": "C47", "title": "A fully read cached download replays identically", "statement": "After a download through the cache was read to its end and closed, a later cache hit for the same base and url delivers exactly the same bytes, until it is dropped, whatever happens to other entries; and the caller of the first read saw exactly the remote bytes.", "quantifier": "every body, read segmentation and history of other cache operations", "why_tests_cant": "All segmentations and histories.", "anchors": ["cache/src/cache.rs: Cache::remote_add, remote_get, CacheReader::read", "model/src/reader.rs: from_url"]}
{"id": "C48", "title": "The cache never serves a truncated download as complete", "statement": "A cache hit never delivers a strict prefix of the remote body as if it were complete. (Fails: when the consumer stops early or the connection fails, closing the writer completes a valid but truncated archive, which later hits serve. Holds if the process crashes instead.)", "quantifier": "every body, interruption point and crash point", "why_tests_cant": "All interruption points.", "anchors": ["cache/src/cache.rs: CacheReader, remote_add"]}
{"id": "C49", "title": "Cache entries of different kinds never collide", "statement": "Entries for directory listings, bodies, successful and failed head checks have different file names whatever the urls; entries of the same kind collide only if their urls have the same digest.", "quantifier": "every url pair", "why_tests_cant": "All urls.", "anchors": ["cache/src/cache.rs: filename"]}
{"id": "C50", "title": "Head results are stable", "statement": "Once head_url has stored an answer for (base,url), every later query returns that answer without contacting the server, whatever else is cached.", "quantifier": "every history of cache operations", "why_tests_cant": "All histories.", "anchors": ["cache/src/cache.rs: head, head_set", "model/src/reader.rs: head_url"]}
{"id": "C51", "title": "The selected baseline is the best available build", "statement": "discover_baselines returns at most one build; it is a successful sample with log and ref urls whose logs are available, it is not the target itself, and no other such sample has a higher score (the first one wins ties).", "quantifier": "every target, sample list and availability function", "why_tests_cant": "All lists.", "anchors": ["model/src/zuul.rs: Build::discover_baselines, baseline_score"]}
{"id": "C52", "title": "Selecting a baseline never panics", "statement": "Discovering a baseline panics exactly when the best build has no change number (false in general: a build of another project without change number, e.g. periodic, gets a score but its conversion expects a change). Opening a zuul url panics exactly when the api gives a build without log url, ref url or change, e.g. of a periodic pipeline.", "quantifier": "every target and sample list", "why_tests_cant": "Depends on rare API data.", "anchors": ["model/src/zuul.rs: baseline_score, new_content, Content::from_zuul_url"]}
{"id": "C53", "title": "Zuul urls are recognised exactly", "statement": "A url is treated as a zuul build iff its last two path segments are build and a 32 character alphanumeric uid; the api is derived from the tenant if the path has t/<tenant> before, else from the part before /build/. If the api url cannot be formed, or the api gives an error, opening the url gives that error, and the build has exactly the parts that the api gave. (False if the url has another /t/ before the tenant, or another /build/ in its query or fragment: the api is then wrong.)", "quantifier": "every url", "why_tests_cant": "All urls.", "anchors": ["model/src/zuul.rs: get_zuul_api_url, is_uid, api_from_webui, api_from_whitelabel_webui"]}
{"id": "C54", "title": "Command line model handling", "statement": "An existing model file is used as is and never overwritten nor retrained, giving both baselines and an existing model is refused with all files unchanged, and a model trained by the command is saved before anything is analysed: if it cannot be saved nothing is analysed and the command fails. The next run uses it. Only the model and report files change. (Fails: a save that was interrupted, or whose last bytes were lost, leaves a file that makes all later runs fail; a report with the model's name, or a concurrent run, replaces the model.)", "quantifier": "every combination of options and file system state", "why_tests_cant": "State machine over runs.", "anchors": ["cli/src/main.rs: process"]}
{"id": "C55", "title": "Numbers in identifiers are collapsed", "statement": "For a word of ASCII letters, digits, dots and underscores of 4 to 31 characters that no volatile class and no error word captures, the output is the word with every number (digits, or digits.digits) replaced by N, or nothing if that leaves at most three characters; so lines that differ only in such numbers tokenize identically. Unrecognised words of at most three bytes disappear.", "quantifier": "every such word, every surrounding line", "why_tests_cant": "Infinite language; all earlier rules must be shown not to apply.", "anchors": ["tokenizer/src/tokenizer.rs: remove_numbers, do_process"]}
{"id": "C56", "title": "Known content is never reported", "statement": "With the real index and threshold: no anomaly of a report has the same tokenized text as a line of the baseline sources its index was trained from. In particular, analysing a target that is itself one of the baselines gives no anomaly and no missing index, if all sources of a name are read in the same mode (json or not); without that condition it can fail, since x.json and x.json.1 share an index that is trained in the mode of its first source.", "quantifier": "every baseline set, target and hash function of the features", "why_tests_cant": "All contents; single precision arithmetic end to end.", "anchors": ["model/src/model.rs: Index::train, Model::report", "index/src/index.rs: search"]}
{"id": "C57", "title": "The result does not depend on hash map order", "statement": "Training and reporting drain hash maps in an arbitrary order. Whatever the orders, the report has the same entries (log reports, index reports, index errors, read errors) up to their order, and the same totals.", "quantifier": "every drain order of each map, every target and baselines", "why_tests_cant": "Random hash seeds: a test sees one order.", "anchors": ["model/src/model.rs: Model::train, Model::report, group_sources"]}
{"id": "C58", "title": "A model is exactly its baselines", "statement": "Every index of a trained model is made of the distinct tokenized lines of all the baseline sources with its name, with exact line and byte counts, and every name has an index; a baseline source that cannot be opened means no model at all.", "quantifier": "every list of baselines, every file content and failure", "why_tests_cant": "All histories of files and failures.", "anchors": ["model/src/model.rs: Index::train, Model::train"]}
{"id": "C59", "title": "The live output is consistent with the report", "statement": "Without a report file, the command prints, source by source in order, the anomalies of each source (or that it has no baseline, or that it could not be read) and totals that are the sums over the sources. If all sources can be opened and read, every anomaly of the report is printed, with the same distance, number and text. (Fails otherwise: a source that cannot be opened silently ends the whole output.)", "quantifier": "every target, model and failure", "why_tests_cant": "Relates two programs on all inputs.", "anchors": ["cli/src/main.rs: process_live, print_anomaly, print_context"]}
{"id": "C60", "title": "Lines that differ only in volatile parts are never reported", "statement": "With the real tokenizer, index and threshold: if a line differs from a baseline line of its index only in volatile words of the same class (dates, ids, addresses, ...), in numbers inside identifiers and in surrounding white space, it is not reported.", "quantifier": "every baseline set, target and hash function of the features", "why_tests_cant": "Infinite languages; end to end through tokenizer, single precision index and report.", "anchors": ["model/src/model.rs: Model::report", "tokenizer/src/tokenizer.rs: process", "index/src/index.rs: search_mat_chunk"]}
{"id": "C61", "title": "Every novel line is represented in the report", "statement": "If the sources of a name can be read, every line of them whose distance to its index is above the threshold is in the report, or a line with the same tokenized form from a source of the same name is; and every reported anomaly is such a line, with its number and distance. In particular a line that shares no word with the baseline is in the report.", "quantifier": "every model, target and failure of other sources", "why_tests_cant": "All contents and groupings.", "anchors": ["model/src/model.rs: Model::report", "model/src/process.rs: ChunkProcessor"]}
{"id": "C62", "title": "Inputs name files, directories, urls or builds", "statement": "An input path is the file or the directory at this path, or an error; a url that is not a zuul build is a directory if it ends with a slash and a file otherwise. Baselines are only discovered for local files (the same path with .0) and zuul builds, never an empty list. Everything else is refused with its own message: a path that is neither a file nor a directory, and a target whose baselines cannot be discovered; a url that does not parse or a file name that is not unicode panics. (A text argument that begins with http is always a url: it panics if it is a file name that is not a url.)", "quantifier": "every argument, file system state and answer of the zuul api", "why_tests_cant": "All strings and file system states.", "anchors": ["model/src/model.rs: Input::from_string, Content::from_input, Content::discover_baselines", "model/src/files.rs: from_path, discover_baselines_from_path", "model/src/urls.rs: from_url"]}
{"id": "C63", "title": "The links of an index page are extracted exactly", "statement": "The links of an Index of page are the quoted targets of its anchors of at least two characters that begin with a letter, digit, slash or backslash; each is found, in the order of the page, once per place; one link that is not a url makes the whole page fail. (Anchors to names of one character or to hidden files are missed.)", "quantifier": "every page", "why_tests_cant": "All texts.", "anchors": ["httpdir/src/httpdir.rs: parse_index_of"]}
{"id": "C64", "title": "A crawler can be used again and stays where it should", "statement": "A crawler that succeeded works like a new one; a crawl whose pages link to their own host stays on it. (False otherwise: after a failed call the remaining messages are returned as files of the next call, after a panic every later call fails; links to other hosts are followed; a directory with two names is listed twice and its files are found twice.)", "quantifier": "every site, history of calls and schedule", "why_tests_cant": "All histories and schedules.", "anchors": ["httpdir/src/httpdir.rs: Crawler::list, Crawler::process, Visitor"]}
{"id": "C65", "title": "Directory listings are replayed from the cache", "statement": "Once the listing of a directory url was saved, every later listing of it gives the same urls without asking the server; any list of urls can be saved and read. (This also holds without LOGREDUCE_CACHE and forever, so the listing can be stale; a listing that was not saved completely makes every later listing of this url fail.)", "quantifier": "every list of urls, every history of cache operations and crashes", "why_tests_cant": "All histories and crash points.", "anchors": ["model/src/urls.rs: httpdir_iter", "cache/src/cache.rs: httpdir_get, httpdir_add"]}
{"id": "C66", "title": "Better baselines are preferred", "statement": "A build is not selected as the baseline when another eligible one with the same project class, branch, pipeline and voting is more recent; a build of the change under test is selected only if every other eligible build is at least 390 days older.", "quantifier": "every target, sample list and availability function", "why_tests_cant": "All lists.", "anchors": ["model/src/zuul.rs: Build::baseline_score, Build::discover_baselines"]}
{"id": "C67", "title": "Bad answers of the zuul api are not kept", "statement": "After an answer of the zuul api that cannot be decoded the next request asks the server again; an answer that was decoded is given again without asking; an answer whose download was interrupted by a crash makes one request fail, and the next one asks the server.", "quantifier": "every history of cache operations and crashes, every decoder that fails when its reader fails", "why_tests_cant": "All histories and crash points.", "anchors": ["model/src/zuul.rs: get_build, get_builds", "model/src/reader.rs: from_url, drop_url", "cache/src/cache.rs: remote_drop"]}
{"id": "C68", "title": "A list of builds is decoded build by build", "statement": "A build of the list that cannot be decoded is left out and changes nothing for the others, which keep their order; unknown fields are ignored; the change, log url and ref url can be null or missing; each part of a build comes from the field of its name; a build is decoded exactly if all the other known fields are there with values of their kind.", "quantifier": "every json value", "why_tests_cant": "All json values.", "anchors": ["zuul/src/zuul-build.rs: Build, Artifact, decode_build, decode_builds"]}
{"id": "C69", "title": "A command analyses its target and compares it with its baselines", "statement": "A run analyses the content of its target and nothing else. The model is the one of the model file, or one that is made from all the given baselines, in order, or, when none are given, from all those discovered from the target. diff takes its baselines from its first arguments and its target from the last one; train learns from its arguments and analyses nothing. No other input is resolved, a success is only reported after an analysis, and a success with a report leaves the page at the path of the report.", "quantifier": "every command, option, file system state, answer of the environment and crash point", "why_tests_cant": "All executions, including failures at any operation.", "anchors": ["cli/src/main.rs: Cli::run, process"]}
{"id": "C70", "title": "The page shows the report", "statement": "When the texts of a report contain nothing that can be taken for markup, reading its html page back gives its logs, in order, each with its name and below it exactly its reported lines with their numbers and distances, and the tags of the page depend only on the shape of the report. The same holds for any texts of logs if the html library escapes texts. (Texts are written as they are, so a line of a log can add a script to the page; the name of a file can do this even if texts are escaped, because it is also put into an attribute. What could not be read is not on the page.)", "quantifier": "every report, every html library that writes texts as they are or without markup", "why_tests_cant": "All texts.", "anchors": ["report/src/report.rs: render, add_container, render_content_report, render_lines"]}
{"id": "C71", "title": "A dataset passes if the expected anomalies are found", "statement": "The test command passes if and only if every dataset does, and reports the first one that does not. A dataset passes if and only if, with the first .good file of its directory as baseline, the lines reported for its first .fail file are as many as the expected lines and each includes its expected line, in order, white space around it left aside. If the .fail file has only lines of the .good file, it passes if and only if nothing is expected. A missing, unopened or unreadable file is an error, never a pass; a .good file below a directory named etc is never used.", "quantifier": "every directory listing, order of entries, file contents, expected lines and list of datasets", "why_tests_cant": "All contents of both files and all orders of the directory.", "anchors": ["cli/src/dataset.rs: test_datasets, process, assert_anomaly_includes", "model/src/model.rs: Index::inspect, Model::get_index"]}
{"id": "C72", "title": "Generated logs are plain", "statement": "The generator gives any number of lines, always the same first ones; each has 2 to 9 words of 2 to 17 ASCII letters and digits with single spaces between them, so 5 to 161 characters; the generated text, read in any pieces and in both modes, gives back exactly these lines with their numbers.", "quantifier": "every random generator with draws in range, every number of lines, every way to read", "why_tests_cant": "All states of the generator and all reads.", "anchors": ["generate/src/generate.rs: gen_line, gen_lines", "python/src/bindings.rs: generate"]}
{"id": "C73", "title": "A saved report or model loads unchanged", "statement": "A report, or a model, that was saved completely loads as the same value: all times, sources, contexts, distances, counters, names and matrices, whatever the sizes of the writes and the order of the maps. It can be saved if and only if its times are not before 1970 and every local path that it names is unicode.", "quantifier": "every report and model, every chunking of the writes, every lawful gzip, url, date and matrix codec", "why_tests_cant": "All values of recursive types of any size.", "anchors": ["model/src/model.rs: Report::save, Report::load, Model::save, Model::load, and the derived codecs", "model/src/zuul.rs: Build"]}
{"id": "C74", "title": "A damaged save is never taken for another value", "statement": "After any sequence of saves to one path, each of which can succeed, fail or be interrupted anywhere, the file is as before and none succeeded, or it loads as one of the saved values with no success since, or it is refused. After a save that failed it is refused; a file that lost its end loads as what was saved or is refused. (Fails: a save can succeed and leave a file that does not load; a save that fails destroys the value saved before.)", "quantifier": "every history of saves, every point of failure or crash, every length of the file", "why_tests_cant": "All crash points of all histories.", "anchors": ["model/src/model.rs: Report::save, Report::load, Model::save, Model::load"]}
{"id": "C75", "title": "Any file that loads gives a valid value", "statement": "Whatever its bytes are, a file that loads gives a report (a model) that can be saved again and then loads unchanged. (Fails: a file that gzip would refuse can load, a file can make the command panic, and a report can load as a model.)", "quantifier": "every file", "why_tests_cant": "All byte sequences.", "anchors": ["model/src/model.rs: Report::load, Model::load"]}
{"id": "C76", "title": "Pages and raw reports are beside the report", "statement": "The raw report of a run and the page of the render command are in the directory of the report, with its name up to the extension; the render command changes no other file, and when it says so the file is the page of the report; if the report does not load it panics and changes nothing. After a successful run with the cache the raw report is the report of the page. (Fails: a report with the same extension as the page is replaced by it, and two reports whose names differ by the extension share these files.)", "quantifier": "every path, file system state and failure of a write", "why_tests_cant": "All paths as the system library splits them.", "anchors": ["report/src/render.rs: render, main", "cli/src/main.rs: process"]}
{"id": "C77", "title": "The summary of a report is right", "statement": "The table of the page shows the target, the baselines, the date and time of creation, the run time and the result. The reduction shown is within 0.00504 points of the exact one and between 0.00 and 100.00, with the exact numbers of lines and of anomalies, and a report never has more anomalies than lines. The date is the one of the Gregorian calendar for the time of creation. The run time is right up to half a hundredth of a second and the precision of an f32. Paths and urls are shown as they were given. The page of a saved report shows this table, the logs, links and counts of that report, or the render command panics, exactly if a name cannot be cut, the date does not exist for the date library or a line number underflows. (Fails: without lines the reduction is not a number, and 100.00 can be shown although there are anomalies.)", "quantifier": "every report with its numbers of lines and anomalies, every time and duration, every path and url, every rounding of ties", "why_tests_cant": "All pairs of 64-bit counters, all times, and all rounding errors of the f32 arithmetic.", "anchors": ["report/src/report.rs: render, add_container, render_time", "model/src/model.rs: Display for Content, Display for Source, Source::get_relative", "model/src/zuul.rs: Display for Build", "report/src/render.rs: main"]}
{"id": "C78", "title": "The shown distance of an anomaly is right", "statement": "For every anomaly of a report the page shows a number from 29 to 99 that is the distance in 99ths rounded down (up to the precision of an f32), the same order as the distances, and 99 only for the distance 1; it colours exactly the anomalies, with a red from 76 to 255 in proportion to the distance, written with two digits. The live output shows the distance rounded to the nearest, from 30 to 99. (Fails: the page and the live output can show different numbers for the same anomaly.)", "quantifier": "every distance that the search can give, every report", "why_tests_cant": "All f32 values and the rounding of their products.", "anchors": ["report/src/report.rs: render_lines", "cli/src/main.rs: process_live"]}
{"id": "C79", "title": "The page links every log to what it is about", "statement": "Behind the fixed links of a page come, for each log in the order of the report, the link to its model, to its file, and to the first three baselines of its model, with the whole names as targets; and each log has its exact number of anomalies.", "quantifier": "every report whose texts cannot be taken for markup, or any report with a library that escapes texts", "why_tests_cant": "All reports; the page is read back by a tokenizer.", "anchors": ["report/src/report.rs: add_nav, add_container, render_content_report"]}
{"id": "C80", "title": "A matrix index is saved and loaded unchanged", "statement": "The matrix of any lines holds, for each line in order, its vector of length one over 260000 columns; searching in it never panics and gives the distances of the list of rows. Its bytes load as the same matrix whatever follows them, and do not load if their end is lost. Bytes that load, from wherever, give a valid matrix that saves and loads unchanged, in which a search gives one distance for each line exactly if it has 260000 columns. (Fails: bytes can load as a matrix in which every search panics.)", "quantifier": "all lines, all targets, all bytes, every hash function", "why_tests_cant": "All matrices and all byte sequences.", "anchors": ["index/src/index.rs: create_mat, index_mat, search_mat, cosine_distance, save_mat, load_mat"]}
{"id": "C81", "title": "The python module answers as the library does", "statement": "A call of the module with one of its capsules has a defined behaviour exactly if search is given a capsule of index, and search_mat and save_mat one of index_mat or load_mat. search and search_mat on the same lines differ by at most (n + 13) / 2^23 for a line of n distinct buckets; search gives a number from 0 to 1, and 0 for an indexed line; search_mat gives each line the number that it gives the line alone; a matrix that is saved and loaded gives the same numbers. (Fails: a capsule of the wrong kind is not refused, and what follows is undefined.)", "quantifier": "every call, all lines and targets, all bytes, every hash function", "why_tests_cant": "All values of the arguments, with f32 rounding errors.", "anchors": ["python/src/bindings.rs: index, search, index_mat, search_mat, save_mat, load_mat"]}
{"id": "C82", "title": "A saved model searches as the model that was trained", "statement": "Whatever batches of lines an index was trained with, it can be saved, and the index of the same name in the loaded model gives every list of target lines the distances of the trained one; a search in a trained index never panics; a model that loads can be saved and loads unchanged, with the codec of the matrices in place of a parameter. The index that does nothing gives every line the distance zero, so that nothing is reported.", "quantifier": "every model, all batches and targets, every hash function, every lawful gzip, url and date codec", "why_tests_cant": "All trained models and all target lines.", "anchors": ["model/src/model.rs: ChunkIndex::add, ChunkIndex::search, Model::save, Model::load", "index/src/index.rs: search_mat_chunk"]}
{"id": "C83", "title": "The live output is only the findings, unless it goes to a terminal", "statement": "If the standard output is not a terminal, or logging is on, the live output is exactly the rows of the analysis, each on its line. On a terminal it is the same rows in the same order with progress about the sources between them: every finding and its context begins a line of its own, the progress that is left at the end is erased, and the last message tells the lines read and the anomalies shown. In every mode the command fails or panics where the analysis does. (False of messages: on a terminal the message about a source without baselines, or that cannot be opened, goes behind the progress on the same line.)", "quantifier": "every model, target, content of sources and output mode", "why_tests_cant": "All sequences of sources with and without findings.", "anchors": ["cli/src/main.rs: process_live, main", "model/src/model.rs: debug_or_progress, OutputMode"]}
{"id": "C84", "title": "The debug commands show what the analysis uses", "statement": "debug-groups prints every group of sources once, in the order of the names, whatever the order of the hash map; debug-iterator prints every line of a stream that can be read to its end, with its number.", "quantifier": "every target, hash map order and stream", "why_tests_cant": "All listings and streams.", "anchors": ["cli/src/main.rs: debug_groups, Cli::run"]}
{"id": "C85", "title": "The page of a report is a well formed document", "statement": "Every element of the page of a report is closed, inside of the element in which it was opened. The page loads the stylesheets and the scripts that the program knows, in order, each with its hash, and has one script of its own. Its title names the target. The lines of the first log are shown when the page is opened, those of the other logs are hidden, and the arrows say which. A separator is drawn where the report has one and nowhere else.", "quantifier": "every report whose texts cannot be taken for markup, or any report with a library that escapes texts", "why_tests_cant": "All reports; the page is read back by a tokenizer.", "anchors": ["report/src/report.rs: render, add_head, add_body, add_nav, add_container, render_content_report"]}
{"id": "C86", "title": "A saved model gives the same analysis", "statement": "Whatever baselines a model was trained with, the model that is saved and loaded again gives every target the report and the live output that the trained model gives it, in whatever order its indexes were written and however the target is read by then; its searches never panic. In particular a run that was one of the baselines has nothing to report with the saved model.", "quantifier": "all baselines, targets, contents of sources, orders of hash maps, hash functions and tokenizers, every lawful gzip, url and date codec", "why_tests_cant": "All models, files and targets, through the bytes of the file.", "anchors": ["model/src/model.rs: Model::train, Model::save, Model::load, Model::report, Model::get_index, ChunkIndex::search", "cli/src/main.rs: process_live"]}
{"id": "C87", "title": "Clicks on the page open and close the logs", "statement": "After any clicks anywhere on the page of a report, the lines of a log can be seen if and only if the log is open: the first log is open at first and the others are not, a click on the header of a log, but for its links, opens or closes it, a click on its close button closes it, and no other click changes it. The arrow of the log and its item always say the same, and the headers can always be seen. The debug button, and nothing else, shows and hides the debug infos: the table, the link to the model of each log and the baseline samples.", "quantifier": "every report whose texts cannot be taken for markup, or any report with a library that escapes texts, and every sequence of clicks at any elements", "why_tests_cant": "All histories of clicks on all pages.", "anchors": ["report/src/report.rs: JS, render_content_report, add_nav, add_container"]}
{"id": "C88", "title": "Commands do end to end what they say", "statement": "Without --report, a command that succeeds has printed the findings of the analysis of its input with its model (the saved one if it is there, else one trained with the baselines), and if the output is not a terminal each on its line and nothing else of its own; a command that fails has printed no finding. To train a model with some baselines and later to analyse an input with it, in another process, prints what comparing the input with these baselines prints, and with --report the page shows the same report up to the order of its entries; a command with --model that succeeded prints the same when it is given again; unless the file of the model lost its end, which is an error. Comparing a run with itself, perhaps among other baselines, finds nothing but logs that cannot be read. No command changes a file but the model that is not there yet and the files of its report.", "quantifier": "every command, contents of files and logs, order of hash maps, time, interrupted write, tokenizer and hash function, every lawful gzip, url and date codec", "why_tests_cant": "All pairs and sequences of commands over all contents of the disk and of the logs.", "anchors": ["cli/src/main.rs: main, Cli::run, process, process_live", "model/src/model.rs: Model::train, Model::save, Model::load, Model::report, Index::train"]}
{"id": "C89", "title": "The grammar of the tokenizer", "statement": "Every line has one tokenized text, and it is the one that a written grammar gives: noise is dropped; else every word, without the openings of Python strings and the punctuation around it, is written by the first rule that applies: volatile words, error words, short words, process numbers, odd characters, secrets, keys and values, paths, dashes, bars, long words, words joined by a bracket or an at sign, and words with their numbers collapsed; the parts of a word are written by the same rules; the texts are joined with single spaces.", "quantifier": "every line and every set of word characters", "why_tests_cant": "All lines of any length; every rule with all its conditions, in both directions.", "anchors": ["tokenizer/src/tokenizer.rs: process, do_process, parse_literal, trim_quote_and_punctuation, trim_pid, contains_odd_char, is_key_value, is_key_for_id, has_many_dash, is_two_words, remove_numbers"]}
{"id": "C90", "title": "Comparing two logs, from the command line to the screen", "statement": "`diff a b`, where a and b name two readable logs (files or urls of files) with lines of ordinary length in unicode and no lines by logreduce itself, succeeds, changes no file and prints exactly: the lines of b, in order, that are the first of their tokenized form in b and are farther than the threshold from all tokenized lines of a, each with its share of 99, its line number and its lines of context, with a separator where the numbers do not follow each other; if the output is not a terminal its bytes are that text and nothing else. So no line is printed as a finding whose tokenized form is in a, nothing at all is printed if all of b is known in a, and every line that shares no word with a is found, or an earlier line of the same form.", "quantifier": "every two byte contents, names, read sizes, order of hash maps, hash function, set of word characters and floating point unit with or without fused multiply-add", "why_tests_cant": "All pairs of logs and all ways to read them; the claim goes through every layer of the program.", "anchors": ["cli/src/main.rs: main, process, process_live, print_anomaly, print_context", "model/src/model.rs: Content::from_input, Model::train, Model::get_index, Index::get_processor", "model/src/process.rs: ChunkTrainer, ChunkProcessor", "iterator/src/iterator.rs: BytesLines", "index/src/lib.rs", "tokenizer/src/tokenizer.rs: process"]}
{"id": "C91", "title": "The stack that reading lines needs", "statement": "On a stack that is too small a call of next() overflows, otherwise it answers as with any stack. Some stack in proportion to what is not read yet is always enough. In a file whose lines are neither empty nor longer than 6000 bytes and have no backslash, four nested calls are enough, however long the file is. But each of a run of empty lines takes its own nested call: no stack is enough for all logs, and after n empty lines no further line is reached on a stack for n nested calls (a defect).", "quantifier": "every log, way to read it, state of the iterator and size of the stack", "why_tests_cant": "A test has one stack and one log; the bound is for files of any length, and the defect is for every stack.", "anchors": ["iterator/src/iterator.rs: BytesLines::next, read_slice, get_slice, drop_until_next_line"]}
{"id": "C92", "title": "Comparing two logs, from the command line to the page", "statement": "`--report file diff a b`, where a and b name two readable logs as in C90, can only succeed by writing to the file a page whose report has exactly the findings of C90, with their contexts, under the name of b, with a as the baseline of its index, and no errors; the page's title and table name b as the target and a as the baseline and say how many lines were read and how many anomalies were found. If the texts are escaped, a browser shows as lines of the page, in order, for every finding the lines before it, the line itself with its share of 99, and the lines after it, where the lines of context have the numbers next to that of the finding (so they are not the numbers in the file if empty lines lie between), and shows no other lines. For files without backslashes this needs no assumption on line numbers.", "quantifier": "every two byte contents, names, read sizes, order of hash maps, hash function, set of word characters, time and run of the command that succeeds", "why_tests_cant": "All pairs of logs; the claim goes from the bytes of the logs to the elements of the page, through every layer.", "anchors": ["cli/src/main.rs: main, process", "model/src/model.rs: Model::train, Model::report", "report/src/report.rs: render, render_content_report, render_lines, render_context", "iterator/src/iterator.rs: BytesLines", "model/src/process.rs: ChunkProcessor"]}
{"id": "C93", "title": "Comparing runs, from the command line to the screen", "statement": "`diff baselines... target`, where each name is that of a log, a directory, an address that is crawled or a build, whose logs can be read and have lines of ordinary length in unicode, none by logreduce itself, succeeds, changes no file and prints, log after log of the target in the order of its listing, without the excluded ones and without links: if logs of the baselines have the name of the log (or all have one other name), what `diff` finds in the log against the lines of all these logs together and no others (as in C90), else one line that says that there are no baselines for it; if the output is not a terminal its bytes are these texts and nothing else. So nothing is found in a run compared with itself among any other baselines; no line is found whose tokenized form is in a log that its log is compared with; and every line that shares no word with these is found, or an earlier one of the same form.", "quantifier": "every number of baselines, tree of files, listing of an address, byte contents, read sizes, order of hash maps, hash function and set of word characters", "why_tests_cant": "All pairs of runs with any numbers of logs; the claim goes through every layer of the program.", "anchors": ["cli/src/main.rs: main, process, process_live", "model/src/model.rs: Content::from_input, Content::get_sources, Content::group_sources, Model::train, Model::get_index, lookup_or_single", "model/src/files.rs: dir_iter, IndexName::from_path", "model/src/urls.rs: httpdir_iter, from_url", "model/src/process.rs: ChunkTrainer, ChunkProcessor"]}
{"id": "C94", "title": "Comparing runs, from the command line to the page", "statement": "`--report file diff baselines... target`, for runs as in C93, can only succeed by writing to the file a page whose report has, for each name among the logs of the target, either an entry that there was nothing to compare its logs with, or for each of its logs with findings, in order, the number of its lines and bytes and the findings with their contexts: the lines that are farther than the threshold from all tokenized lines of the logs of the baselines of that name and whose tokenized form is in no earlier line of the log and no earlier log of that name; for each name with findings the logs of the baselines once; and no other entries. Title and table name the runs and say how many lines were read and how many anomalies were found. If the texts are escaped, a browser shows a section for each of these logs, with its name, links to the file and to at most three of the logs that it was compared with, and exactly its findings between their lines of context, with their line numbers. So no line that a baseline has is on the page, and a line without any word of the logs it is compared with is, or one like it.", "quantifier": "every number of baselines, tree of files, listing of an address, byte contents, read sizes, order of hash maps, hash function, set of word characters, time and run of the command that succeeds", "why_tests_cant": "All pairs of runs with any numbers of logs of one name or several; the claim goes from the bytes of the logs to the elements of the page.", "anchors": ["cli/src/main.rs: main, process", "model/src/model.rs: Content::from_input, Content::get_sources, Content::group_sources, Model::train, Model::report, Model::get_index", "report/src/report.rs: render, render_content_report, render_lines, render_context", "model/src/process.rs: ChunkTrainer, ChunkProcessor"]}
{"id": "C95", "title": "Analysing without naming baselines, from the command line to the screen or the page", "statement": "`path file` does exactly what `diff file.0 file` does: for each report and model file that is asked for, if the model file does not exist yet, the same outputs, files left and ends are possible, also if file.0 is absent. `url page`, for the page of a build, does what `diff page' page` does, where page' is the page of the build that is found for it (C51), after the messages of the search. So C93 and C94 hold for these commands with the logs that are found. A file is compared with the lines of file.0 whatever the names of the two. For a directory, a file without file.0, and a url that is not the page of a build, the program writes nothing on its standard output (on a terminal one empty line), leaves all files as they are and ends with an error.", "quantifier": "every path, url, file, report and model option, file system, answer of the servers, hash function and set of word characters", "why_tests_cant": "An equality of the behaviours of two commands for all inputs, files and failures.", "anchors": ["cli/src/main.rs: main, process", "model/src/model.rs: Content::discover_baselines, Content::from_input", "model/src/files.rs: discover_baselines_from_path, from_path", "model/src/zuul.rs: Build::discover_baselines"]}
{"id": "C96", "title": "Analysing the page of a build, from the answers of the servers to the output", "statement": "For a page whose path ends with /build/ and 32 letters and digits, `url page` asks the api whose address is made from that of the page for this build, and reads from its answer the job, project, branch, pipeline, change, end and address of the logs. It then asks the api for samples with a query from which a server reads exactly job_name with the job (whatever characters it has), limit 500 and result SUCCESS. Of the samples that can be decoded, are not the build itself, have a page, logs whose server says that they are there, and a change if they are of the project, it takes the one with most points, the first of several, and compares the logs of the build with those of that sample: what is printed is what C93 says. If there is none it ends with an error and leaves all files as they are; if the best one has no change it panics. It says first which build it searches for and with which question, and then which samples were skipped because the question for their logs failed: only samples with at least the points of the one that is taken, and all with more.", "quantifier": "every page, answer of the api and of the servers of logs, date, job name, file system, contents of logs, hash function and set of word characters", "why_tests_cant": "All answers of the servers, and all bytes in the name of a job; the claim goes from the answers to the standard output.", "anchors": ["model/src/zuul.rs: from_zuul_url, get_zuul_api_url, get_build, get_success_samples, baseline_score, logs_available, discover_baselines, new_content", "zuul/src/zuul-build.rs: Build, decode_build, decode_builds", "cli/src/main.rs: process", "model/src/model.rs: Content::discover_baselines"]}
{"id": "C97", "title": "Analysing a source again from the cache", "statement": "Finding by finding, the lines of a source are read only when the next one needs them, and this gives the same findings, end and counters as reading all lines first, for every number of findings that are asked for. An analysis, or a training, that ends before the end of the source (at a line that is not text, or where logreduce's own output begins) does not depend on what it did not read. So if a url without lines that are too long is downloaded through the cache, analysed or used for training, and the reader is dropped, then a later analysis or training of it, which is given from the cache only what the first one has read, in reads of any sizes, has the same result; and a url that was used for training is analysed from the cache as if it were downloaded. The other order loses lines: a url that was analysed first, and where logreduce's own output begins somewhere, is then used for training without what follows, while a training on the download would use it. The same results need that no read failed: if the connection fails after the first line, the first analysis ends with an error and finds nothing, while a later one finds what the line shows, and no error.", "quantifier": "every history of the cache, url, content, sizes of reads, number of findings, tokenizer, distance, threshold, known lines", "why_tests_cant": "It is about all points where a reader can stop, all histories of the cache and all ways a stored file can be delivered.", "anchors": ["model/src/reader.rs: DecompressReader, from_url", "cache/src/cache.rs: RemoteCache::new, get, cache_reader", "model/src/process.rs: ChunkProcessor::next, read_anomalies, ChunkTrainer::add", "iterator/src/iterator.rs: BytesLines::next"]}
{"id": "C98", "title": "Which baselines are named, and how", "statement": "Two commands that compare the same target, for runs as in C93, write the same bytes and find the same lines with the same distances if for each name the baselines of one have a log of it exactly if those of the other have one, and the logs of that name together have the same tokenized lines. So the order in which baselines are named does not matter, nor that one is named twice, nor in which log, in which order or how often a line is there, nor anything in them that tokenizing removes. If baselines are added, and the logs of the target had logs of their names before, each line that is found was found before, and is not farther now. Without that it can be otherwise: a log that was compared with logs of another name, as they had only one, is compared with none when a baseline of one more name is added.", "quantifier": "every two lists of baselines, trees of files, listings of addresses, byte contents, read sizes, orders of hash maps, hash function and set of word characters", "why_tests_cant": "It relates all pairs of runs of the program on all pairs of sets of logs.", "anchors": ["cli/src/main.rs: main, process, process_live", "model/src/model.rs: Model::train, Content::group_sources, Model::get_index, lookup_or_single", "index/src/index.rs: search_mat_chunk", "model/src/process.rs: ChunkTrainer, ChunkProcessor"]}
{"id": "C99", "title": "What is taken from the baselines", "statement": "If the logs are replaced by others that differ, line by line, only in what tokenizing removes (each line by one of the same tokenized form and the same length, a line that is not text by one that is not text, a failed read by the same failure), except the logs that the command analyses, which stay as they are, then every command with every flag can write to its standard output, and to the model file, the raw report and the page, exactly the same bytes and end in the same ways. In particular training writes the same models: a model holds of its baselines only the tokenized lines, how many lines and bytes were read and the names, so dates, numbers, identifiers and addresses that the tokenizer removes cannot be got from a model, a report or a page through the baselines. The lengths matter: with a number of one digit more another model is written.", "quantifier": "every two contents of the logs, command, flags, files, trees, listings, tokenizer, hash function, orders of hash maps, times and failures to write", "why_tests_cant": "It relates all pairs of runs of the program, on all pairs of contents of the logs.", "anchors": ["cli/src/main.rs: main, Cli::run, process, process_live", "model/src/model.rs: Model::train, Index::train, Model::report, Model::save", "model/src/process.rs: ChunkTrainer::add", "index/src/index.rs: new_chunk_index"]}
{"id": "C100", "title": "Several processes download the same url", "statement": "Processes that share the cache look whether an entry exists and create it in two steps, so several can download the same url into one file, each making it empty when it starts. If the server sends all of them the same content, in reads of any sizes, and none drops its reader before the end, then once the last one that created the entry has read it to the end the entry gives the whole content to whoever asks from then on, whatever the order of their reads and writes, whatever happens to other urls, and although others are still writing to it, fail to write, or end. In particular it is whole when all are done. It is assumed of gzip that the archive does not depend on the sizes of the writes. If one of them stops reading early this can fail: then the entry can give a part of the content as if it were all, also to the processes that read to the end.", "quantifier": "every number of processes, interleaving of their steps, size of reads, crash of some of them, failed write, history of other urls, content and url", "why_tests_cant": "It is about all interleavings of any number of processes, and their crashes.", "anchors": ["cache/src/cache.rs: Cache::get, create, remote_add, CacheReader::read, remote_get", "model/src/reader.rs: from_url"]}
{"id": "C101", "title": "What is found depends on the tokenized lines of the target only", "statement": "If the logs of two targets have the same numbers of lines and, line by line, the same tokenized form (or both lines are not text, or reading fails in the same way), and if the lines with logreduce's own output are the same ones, then with the same model the two reports are alike: findings are in the same logs, at the same line numbers, with the same distances, with contexts of the same sizes whose lines correspond, the same errors, the same baselines and the same totals; only the bytes of the lines and the count of bytes differ. The same holds of all that is written to the screen while the logs are analysed, in every mode of output, and of the rows of the page. In particular another date, number, address or blank that the tokenizer removes never moves, adds or hides a finding. Logreduce's own output must be the same: if only one of two lines of the same tokenized form is taken for it, the rest of that log is not read and its findings are missing.", "quantifier": "every two targets, model, tokenizer, search, threshold, order of hash maps and failures to read", "why_tests_cant": "It relates all pairs of targets, and analysing works in batches with context carried between them.", "anchors": ["model/src/process.rs: ChunkProcessor::next, read_anomalies, do_search_anomalies", "model/src/model.rs: Model::report, Index::get_processor", "cli/src/main.rs: process_live", "report/src/report.rs: render_lines"]}
{"id": "C102", "title": "A log that has grown", "statement": "If lines are appended to a log (text without logreduce's own output) and it is analysed again with the same model, all that was found before is found again, in the same order and first: the same lines with the same numbers, distances and contexts, except that the last finding may now be followed by more lines of context. All other findings are on appended lines. So what is shown of the shorter log is the beginning of what is shown of the longer one, and a log that was cut off gives the first findings of the whole log. In particular, if a log that ends with a whole line grows by any bytes, what a comparison with the same other log writes to a file or a pipe begins with what it wrote before. The last line must be whole.", "quantifier": "every log, appended lines, set of lines known before, index and threshold", "why_tests_cant": "Lines are analysed in batches whose ends depend on all lines before, and the context of a finding is completed by later batches; it must hold for every log and every place where it is cut.", "anchors": ["model/src/process.rs: ChunkProcessor::next, read_anomalies, do_search_anomalies, collect_before, reset", "cli/src/main.rs: process_live"]}
