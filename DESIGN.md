# Formal model of lexkrstn/recengine in Rocq (Coq 8.16.1)

Nothing here runs the Go code. The tie between model and code is the reading of
`/repo`; every model definition cites the file and lines it models.
`properties.jsonl` holds the properties, `MANIFEST.json` their status and theorems,
`seeded/LOG.jsonl` the wrong programs the theorems were tried on.
There `theorems_failed` lists the theorems whose proof no longer goes through, directly or
because a lemma it uses fails; a theorem listed only through a lemma need not be false of
the wrong program.

## Layout (rocq/theories)

| kind | files | content |
|------|-------|---------|
| model | `Base.v` | Go errors and outcomes as values, fixed-width integers, big-endian codecs |
| model | `Arrays.v`, `ArraysFloat.v`, `Profile.v`, `Similarity.v` | `helpers/arrays.go` (integers; float32 and float64 on Flocq's formats), `domain/profile.go`, its float32 arithmetic on Flocq's binary32 |
| model | `SliceHeap.v`, `FileBufferMem.v`, `ListRace.v`, `Torn.v` | `arrays.go`, `profile.go` and `file_buffer.go` with backing arrays in memory; listing namespaces while the list changes; reading names and the list word by word |
| model | `GoIO.v`, `FileBuffer.v`, `Lock.v` | files, readers, writers, `io.ReadFull`, `encoding/binary`, `bufio`, `helpers/io.go`; `helpers/file_buffer.go`; the lock flag of the three formats |
| model | `Delta.v`, `Index.v`, `Recdb.v` | `internal/infra/{delta,index,recdb}` |
| model | `Naming.v`, `Config.v`, `Settings.v`, `Json.v`, `Service.v`, `Api.v` | value objects and paths, `config.go`, JSON syntax, `namespaceservice.go`, dto and endpoints |
| model | `JsonCodec.v`, `ApiText.v` | `encoding/json` on flat structs: strings, numbers, keys, output; the texts of requests and responses |
| model | `ServiceConc.v`, `SaveConc.v`, `Worker.v`, `WorkerTime.v`, `LikeStart.v`, `StartFiles.v`, `App.v` | concurrent requests, namespace worker and callers (also with a clock), `likeNamespace.Start` on files and the descriptors it holds, `application.go` and `main.go` |
| specification | `Spec*.v` | what the theorems are stated in: sets, finite maps, ideal files, crash images, histories, grammars |
| callers | `*Session.v` | executions: what a caller may do, with the history of what was done |
| proofs | `*Facts.v` | lemmas |
| statements | `Prop*.v` | the property theorems: statement, short proof, `Print Assumptions`, concrete cases (`Example`) |

Model files hold no proofs, so they still compile when a proof breaks.

## Modelling conventions

* Integers are `Z` with explicit range predicates. Where Go wraps (`uint32(len)`,
  checksum bytes, `Capacity-entryHeaderSize`, signed subtraction) the wrap is written in
  the model. `int` is unbounded except in conversions.
* Outcomes: `Ret`, `Err` (a Go error value), `Panic`, `Hang` (blocked for ever).
  `fmt.Errorf("..%v",e)` forgets `e`, `%w` keeps it.
* A file is content, pointer, closed flag, kind (`FileBuffer` or OS file: they differ in
  seeking past the end and in zero-length reads), a script of injected faults and short
  transfers (of reads, writes, truncations and the close of an OS file; seeks fail only
  for bad arguments), and a ghost log of byte-level changes in the order they were issued.
  A *crash image* is the replay of any prefix of the log.
* `io.Reader`/`io.Writer` are functions over a state type. Protocol code is polymorphic
  in them, so the same definitions run over files and over `bufio`.
* A Go map is a std++ `gmap`. `range` over a map takes an arbitrary permutation as
  argument (`shuffle`), so theorems hold for every iteration order.
* Go strings are byte lists.
* Goroutines, channels, signals and timers are labelled step relations; theorems
  quantify over all executions.

## What is modelled

| code | model | extent |
|------|-------|--------|
| `helpers/arrays.go` | `Arrays.v`, `ArraysFloat.v`, `SliceHeap.v`, `ArraysCost.v` (elements looked at) | every function; integer types by width and sign, float types by precision and exponent range (one NaN); backing arrays |
| `helpers/file_buffer.go`, `helpers/io.go` | `FileBuffer.v`, `FileBufferMem.v`, `GoIO.v` | everything, including panics; `FileBufferMem.v` adds the memory shared with the caller |
| `domain/profile.go` | `Profile.v`, `Similarity.v`, `SimilarityCost.v` (elements looked at) | everything; NaN payloads are not distinguished, fused multiply-add and out-of-range float to int conversion are parameters |
| `infra/delta` | `Delta.v`, `DeltaShare.v` (several openers), `DeltaRace.v` (simultaneous openers), `DeltaPrint.v` (the `fmt.Println` of `flushHeader`), `DeltaMem.v` (memory requested by `Open`) | everything; the printed addresses are parameters |
| `infra/index` | `Index.v`, `IndexRace.v` (simultaneous openers) | everything |
| `infra/recdb` | `Recdb.v`, `RecdbMem.v` (allocation sizes), `RecdbShare.v` (several iterators on one file), `Worker.v` (`likestorage.go`) | everything |
| `domain/valueobjects`, path building | `Naming.v` | everything; the regular expression is interpreted by a matcher |
| `domain/namespaceservice.go`, data of `likenamespace.go` | `Service.v`, `ServiceConc.v` | everything; slice headers are read and written at once, except in `Torn.v` (C110); os.WriteFile is one step except in `SaveConc.v` (C136), where it is open, pieces of the write, close |
| `domain/likenamespace.go` Start (files) | `LikeStart.v`, `StartFiles.v` | opening, recovery, reset, faults; up to the start of the goroutine |
| `domain/likenamespace.go` worker, callers, Stop | `Worker.v`, `WorkerTime.v` (a clock) | all interleavings; time.Sleep lasts at least its time, everything else any time |
| `api/shard/config.go` | `Config.v`, `Addr.v` (what `net.SplitHostPort` makes of the address) | everything; names are not resolved |
| `api/shard/dto`, `endpoints/namespaceendpoint.go`, `endpoints/helpers.go` | `Api.v`, `ApiText.v` | routing of the declared routes, validation tags, handlers, status codes, reported fields; request texts and response texts |
| `api/shard/application.go`, `main.go` | `App.v` | Run, listener, shutdown, timer, signals, exit |
| `main.go` settings | `Settings.v` | everything; `godotenv.Load` by its documented behaviour (set what is not set), its parser is not modelled |

## What is not modelled

* The texts of error messages: arbitrary bytes in the bodies of responses. Headers.
* gin's own redirects and 404s for undeclared routes; the parser of `godotenv`; logging; the generated
  `docs/`, except that C86 compares the answers with it.
* Shared backing arrays of slices outside `helpers/arrays.go`, `helpers/file_buffer.go`,
  `profile.go` and the list of namespaces: elsewhere a slice is its list of elements.
* Memory exhaustion, integer overflow of `int` counters.
* The file system beyond single files: directory entries. Crash images assume that the
  bytes arrive in the order they were issued, as they do when a process dies. Only C94,
  C109 and C128 are about power failures (`SpecPower.v`): blocks reach the disk as wholes and
  independently, and the length of the file by itself.
* Trusted summaries of library code: `os`, `io`, `bufio`, `encoding/binary`,
  `encoding/json` (Go 1.19), `regexp`, `strconv` (`Atoi`, `ParseUint`; `ParseFloat` is
  taken to round correctly), go-playground/validator tags in use,
  `net/http` Server as far as `Run` sees it. Each is written out as a definition with a
  comment saying what is assumed.

## Properties and methods

A property that the code violates is settled by a `_refuted` theorem (a witness run
through the model) and by the strongest positive theorem found, suffixed `_partial`,
often with a theorem giving the exact behaviour; the manifest note begins with REFUTED.
Beside each theorem a concrete case meets its hypotheses.

| ids | area | method |
|-----|------|--------|
| C80, C81 | backing arrays | refinement to lists, separation of arrays; positions as an invariant over executions |
| C01-C06 | ordered slices | loop invariant by induction on the interval |
| C07-C08 | profiles | refinement to a finite map item -> verdict, induction over the calls |
| C09-C12 | similarity | counting on sorted lists, monotonicity of rounding |
| C13-C14 | in-memory file, zero fill, skipping | simulation by an ideal file; induction on the chunk loop over any lawful reader or writer |
| C15-C20, C59 | encodings, checksum, lock flag, recovery | codec lemmas, list surgery, invariant over the remaining stream |
| C21-C30, C61-C64, C82 | delta storage, crashes, faults | history invariant relating file, cache and new delta; prefixes of the write log; failed flushes (C62): simulation by the session without them |
| C31-C34, C60 | index storage | refinement to a finite map |
| C35-C41 | recdb formats and iterator | codec lemmas, iterator invariant |
| C83-C86 | texts of requests and responses, reported fields, documented answers | grammar and meaning of JSON as relations; decoder and encoder proved against them; rounding to odd for decimal numbers |
| C87 | accuracy of the similarity | calculus of factors (1 + 2^-23)^k over the roundings of the formula; bound for the truncated weight |
| C88 | termination and absence of panics on any file | decreasing measure of unread bytes, composed over the code |
| C89 | recovery with read errors | simulation by the recovery of a beginning of the content |
| C90 | memory requested by entries | ghost counter with an erasure lemma; potential argument over the bytes read |
| C91 | two storages on one delta file | session invariant over interleaved calls; list surgery for the counts |
| C92 | calls on a closed storage | closed files are inert, lifted through the buffered writer |
| C93 | cost of the searches | counter with an erasure lemma; induction on the exponent; the positions looked at |
| C94 | power failures | pointwise reading of independently persisted blocks; classification of all writes of a session |
| C95, C96 | similarity when opinions are added | counting sets with and without an item, monotone fractions, the error bounds of C87; witnesses computed in binary32 |
| C97 | memory of a FileBuffer | simulation by the FileBuffer without memory; footprint of every call |
| C99 | readers that report EOF beside data | lemmas over a wider class of readers; bufio.Reader shown to hide the difference for small reads |
| C100 | files of a namespace | noninterference: a predicate "looks at and changes only these paths", closed under sequencing |
| C101, C102 | deleting and renaming | C100 and C57 combined with the service |
| C103 | length of names | counting |
| C104 | settings | induction over the map of `.env` |
| C105 | float slices | simulation by exact integers (multiples of the smallest float) where differences are not rounded; computed witnesses |
| C106 | what Flush prints | unambiguous reading of the printed text; counting |
| C107 | simultaneous calls of Open, delta and index | Open split at the lock; invariant over all orders of the steps |
| C108 | starting a running namespace | session invariants of both storages; lock byte |
| C109 | index and power failures | pointwise reading of independently persisted blocks |
| C110 | torn reads of names and of the list | word-level interleavings in any order; invariant and constructed executions |
| C111 | what a refused client is told of a field | rules stated apart from the tags; case analysis of the first failing tag |
| C112 | the files a start leaves open | start once more with a list of open descriptors, proved to be the start of the other properties; what every call on a file keeps |
| C113 | the linear search | induction |
| C114 | repeating a failed recovery | reduction to the crash images of C29 |
| C115 | triangle inequality of distances | the seven regions of three sets, then the error bounds of C87; witnesses for the refutations |
| C116 | item ids are only names | counting under injections; the computed value depends on six counts only |
| C117 | factor 0.5 | error bounds of C87; witness for the last bit |
| C118 | conversations over HTTP | induction over the requests |
| C119 | index Close when file calls fail | what reached the file is a prefix of what was written (FaultyFacts) |
| C120 | delta Flush and Close when file calls fail | same, with the crash images of C25 |
| C121 | record iterator when reads fail | `maybe`: a reader that agrees with the list reader until it fails (FlakyReadFacts) |
| C122 | opening delta and index files when file calls fail | same, with the open images of C22, C25 and C32 |
| C123 | order and permanence of delta records | invariant of C21 with the entries of the file as ghost state |
| C124 | bytes of an index file after Close | exact bytes from the invariant of C31 |
| C125 | Close of an index after Closes that failed | only the magic and the pairs in memory are kept as invariant; Close overwrites the rest |
| C126 | How long queued calls wait | a clock beside the transition system (WorkerTime.v); only time.Sleep takes a stated time; the deadline of a call never moves while no time is lost |
| C127 | Close of a delta storage after Closes that failed | as C62: the storage keeps the answers and records of one where nothing failed; a Flush that succeeds under faults equals the one without |
| C128 | power failures during a recovery | pointwise reading of independently persisted blocks; old and new content agree outside the header |
| C129 | cost of a comparison | counter with an erasure lemma over that of C93 |
| C130 | memory of opening a delta file | counter with an erasure lemma; bound by the bytes the reads consumed |
| C131 | meaning of the scores 0 and 100 | error bound of C87 against the gap of one item; one rounded witness |
| C132 | delta files written by others | simulation by the storage on the announced records alone |
| C133 | which files are accepted | `AcceptFacts.v`: case analysis of every file without errors into accepted and refused |
| C134 | the address the shard listens on | `Addr.v`: `net.SplitHostPort`; all texts `host:port` by cases |
| C135 | how often the storages call the file | length of the used-up script of the environment; invariants of the two bufio buffers |
| C136 | saving the namespaces from several requests at once | interleaved os.WriteFile calls (SaveConc.v): open truncates, writes go to the own position; invariant "the file begins with one text and ends like one" |
| C137 | dying while a profile of a database is rewritten | ghost log of the written bytes (as in C25): the torn entry keeps its capacity, so ReadEntry fails on it or consumes exactly it; the unreachable entry by an invariant over three iterator states |
| C138 | repeating a SetPrevious that failed | every write of WriteEntry followed through the script of faults: all bytes or a first part; the position left behind decides where the repetition writes |
| C139 | a profile replaced with success and a power failure | the disk keeps any mixture of blocks (SpecPower); each byte of the entry is then old or new and the capacity is the same in both, which is all the reading lemma of C137 needs |
| C140 | SetPrevious refuses what does not fit and can follow itself | the guards computed directly; on a sound database the remembered capacity is that of the entry last returned; SetPrevious keeps the invariant of the iterator for the changed database, so calls compose |
| C141 | several iterators on one database file | sessions of iterators that share the file (RecdbShare); Rewind re-establishes the invariant of the iterator from any position and buffer, and no call changes the content |
| C98 | both storages beyond 2^32 entries | invariants without the bound; the image of a file read as the image of its announced part |
| C42-C51, C65-C68, C70, C77-C79 | names, service, endpoint, configuration, namespaces file | case analysis, induction over request histories and schedules; equivalence of the JSON parser with the RFC 8259 grammar |
| C34, C57, C72 | starting a namespace | case analysis over file contents and faults |
| C52-C56, C69, C71, C75-C76 | namespace worker | inductive invariants over executions, decreasing measures |
| C58, C73-C74 | server | inductive invariants over executions, decreasing measures |

## Trusted base

* The Coq 8.16.1 kernel, with its virtual machine (`vm_compute`).
* The reading of the Go source and the library summaries above.
* Axioms, from `Print Assumptions` of every theorem named in the manifest. All theorems
  are closed under the global context, except the following, which mention float32 values
  (also inside the namespace state) and therefore Flocq, which uses the real numbers of
  the standard library:
  `ClassicalDedekindReals.sig_forall_dec`, `ClassicalDedekindReals.sig_not_dec`,
  `Classical_Prop.classic`, `FunctionalExtensionality.functional_extensionality_dep`
  (these four, if nothing else is said; each from the standard library):

  `C09_jaccard_correctly_rounded`, `C09_any_size`, `C09_beyond_refuted`,
  `C10_similarity_symmetric`, `C105_closest_refuted`, `C105_put_order_refuted`,
  `C105_put_once_refuted`, `C105_search_partial`, `C105_nothing_lost`,
  `C105_exact_partial`, `C105_grid`, `C11_similarity_range_refuted`,
  `C11_similarity_range_partial`, `C111_messages_partial`, `C111_one_rule` (only
  `sig_forall_dec`, `functional_extensionality_dep`),
  `C111_message_tells_the_rule_refuted`, `C115_close_to_a_third_refuted`,
  `C115_close_to_a_third_partial`, `C115_whole_factor_partial`, `C115_rounding_refuted`,
  `C116_ids_do_not_matter`, `C117_equal_effect_refuted`, `C117_equal_effect_partial`,
  `C118_list_refuted`, `C118_list_partial`, `C118_others_change_nothing`,
  `C12_self_100_disjoint_0`, `C129_compare_cost`, `C129_every_item_is_read`,
  `C131_extremes_refuted`, `C131_large_refuted`, `C131_zero_partial`,
  `C131_hundred_partial`, `C44_names_unique`, `C45_alone_agrees`, `C45_unique_refuted`,
  `C45_not_lost_refuted`, `C45_concurrent_partial`, `C45_file_refuted`,
  `C46_update_never_returns`, `C46_update_completes_refuted`,
  `C46_update_refused_partial`, `C47_no_trace_refuted`, `C47_failed_creation_partial`,
  `C48_restart_refuted`, `C48_restart_loses_everything`, `C48_empty_list_partial`,
  `C49_always_400`, `C49_addresses_refuted`, `C49_harmless_partial`,
  `C49_get_handler_partial`, `C49_put_handler_partial`, `C50_create_validates`,
  `C65_created_is_listed`, `C66_zero_factor_refuted`, `C66_nonzero_factor_partial`,
  `C67_restart_crashes`, `C68_delete`, `C68_the_deleted_are_stopped`,
  `C68_name_is_free_again`, `C70_every_request_answered`, `C70_no_request_kills`,
  `C79_failed_save_refuted`, `C83_fields_partial`, `C83_update_fields_partial`,
  `C83_fields_refuted`, `C85_post_object`, `C85_post_other`, `C85_post_deep`,
  `C85_put_object`, `C86_documented_partial`, `C86_documented_refuted`,
  `C87_weighted_mean_refuted`, `C87_weighted_mean_partial`, `C95_dislike_refuted`,
  `C95_like_refuted`, `C95_like_partial`, `C95_partial`, `C96_dislike_refuted`,
  `C96_like_partial`, `C96_partial`.

* No axioms, parameters or admitted proofs of our own, and no kernel check switched off.
