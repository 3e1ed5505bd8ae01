# Formal model of koykov/uaxpl in Rocq (Coq 8.16.1)

## 1. Layout

`rocq/theories/` (logical name `Verif`), four layers, one style (stdlib only):

| layer | files | content |
|---|---|---|
| model | `Model_*.v` | executable Gallina transcription of the Go code, each definition citing file:lines; no proofs |
| data | `Data_*.v` | the shipped tables (`*_repo.go`), generated by `tools/gen_tables.py` from /repo, as plain Coq data |
| spec | `Spec_*.v` | small independent specifications used in theorem statements |
| proofs | `Proof_*.v` | lemmas |
| properties | `Prop_*.v` | only the property theorems (closed by `exact`), `Print Assumptions`, and the non-vacuity `Example`s |

## 2. Modelling decisions

* **Bytes.** `[]byte`/`string` are `list byte` (Coq's 256-constructor `Byte.byte`): every value is a real byte, no side condition.
* **Panics** are values: results have type `res A := Ok a | Panic`. A slice expression, an index or a nil
  dereference that Go would reject gives `Panic`. Go checks `b[lo:hi]` against the *capacity*; the model checks
  against the *length*. For the tables the two coincide (composite literals); for the context's own buffers
  a read between length and capacity returns stale bytes instead of panicking - the model calls both `Panic`
  ("out of bounds of the contents"). With honest caches only `GetModel` can get there (C79_others); what it then shows is
  modelled in `Model_Stale.v` (C79). Theorems that leave the model of a repeated user agent open (C22, C60, C67, C73) end the
  goroutine or record a panic there, where Go may go on with stale bytes.
* **Integers.** Fixed-width conversions are written explicitly (`mod 2^32`, `wrap32`), where Go converts.
* **Mutation through a pointer** is state passing; a context is a record `ctx`.
* **Shared cache.** Code that talks to the cache is a *program tree* (`prog A`): `Ret`, `CGet key k`, `CSet key e k`.
  A sequential run interprets it against a cache state; a concurrent run interleaves the trees of several
  goroutines at cache operations (each is one critical section of `cache.mux`), with evictions in between;
  "any cache" is quantification over the answers to `CGet`.
* **Built-in cache** (`cache.go`) is modelled at pointer level (heap of rows, row buffer of pointers, index map), with the clock reading an
  input of each operation.
* **Regular expressions.** Go's `regexp` is a dependency, not code of this repo. It is modelled by a parser and a
  leftmost-first backtracking matcher over UTF-8 input (`Model_Regex.v`), about which capture bounds are proved.
* **Third-party helpers** (`entry.Entry64`, `bitset.Bitset`, `bytealg`, `byteconv`, `fnv.Hash64String`) are not in
  /repo; their behaviour is transcribed from their documented contract and cross-checked against the shipped tables where
  possible (Entry64 layout: all table ranges decode to sensible text; FNV-1: the keys of `hint_repo.go`).

## 3. Property plan

| id | modelled by | proof idea |
|---|---|---|
| C01-C04 | `Model_CacheEntry.v` (byte-level codec) | little-endian put/get inverse lemmas; offsets by list append; prefix reasoning |
| C05-C09 | `Model_Version.v` (Parse/Write/Reset, Atoi, AppendInt) | independent `split on dots` spec; decimal print/parse inverse; counter-examples by computation |
| C10-C12 | `Model_Tokenizer.v` (delimiter table of 255 entries) | spec: maximal runs; induction on the input |
| C13-C17 | `Model_Cache.v` (pointer-level) | representation invariant + refinement to a finite map; halving argument for `clean`; aliasing counter-example, and a simulation on values (`Proof_OneKey.v`) for rows that keep to one key |
| C18 | cache + FNV-1 + prog trees | theorem for collision-free key sets; concrete FNV-1 collision as counter-example |
| C19-C22 | `Model_Ctx.v`, `Model_Parse.v` program trees | rely/guarantee: every answer consistent with the pure analysis => every result is the pure analysis and every write is consistent; lifted to sequential histories and interleavings |
| C23-C27, C31-C34, C40 | parsers over arbitrary tables | relational specs ("first matching entry"), proved equal to the loops |
| C28-C30 | `Model_Ctx.v` | state equality after reset; counter-example for setter order; what the buffers hold beyond their length: C79 |
| C35-C37 | shipped tables + regex model | table well-formedness checked by `vm_compute` over the whole finite table, lifted to all user agents; counter-example user agents for C37 |
| C38 | defer semantics in the model | concrete witness |
| C39, C45 | engine functions as data + generator model | counter-example; exact order of texts on decimal numbers (`Prop_Threshold.v`); generator spec |
| C41 | enumerations | exhaustive case analysis |
| C42-C44 | `Model_Compiler.v` | induction over adds; termination measure = string length; hex print/parse inverse |
| C48 | `Spec_Again.v` (`leaf`: every way a getter can end) | after one call the detection flag is set, readers do not write; growth: induction over the number of calls |
| C49, C50 | `Proof_Quirks.v` | boolean check over all shipped entries plus a lemma for arbitrary tables; witnesses |
| C51 | `Prop_Quirks.v` | the README claims as a list, one of them computed |
| C52 | `Proof_Blind.v` | a detection commutes with changing a setting it does not read |
| C53-C57 | `Model_Built.v` (the whole generator), `Spec_Database.v` (meaning of a database without tables) | invariant of the generator: each tuple means its entry; then the relational theorems over arbitrary tables (C23-C34) are transported |
| C58 | `Model_Regex.v` (parser and backtracking matcher); `Spec_Regex.v`: parse trees, preference between trees, language, UTF-8 | matcher = ordered enumeration of parse trees; the first is the preferred one, at the leftmost start; language equivalence by removing empty iterations; UTF-8 decoding by cases |
| C59 | `Spec_Case.v`: texts equal up to the case of ASCII letters; fixed texts of the tables | patterns with (?i) have case-closed classes, so the matcher answers alike; relational run of all detections on the two user agents. Refuted without the hypothesis on fixed texts ("LeafOS"/"leafos"), and for the device type ("Ubuntu"/"ubuntu"); partial |
| C60 | `Spec_Honest.v`: a cache as a relation between the rows stored so far and the answers it may give (miss, a stored row restamped, a stored row through the wire format) | invariant of the interleaving: every stored row is a faithful row of its user agent (`row_ok`), kept by stamping and by the round trip C01; no hypothesis on hashes, since a contract cache never confuses keys (the built-in one may: C18) |
| C61 | `Spec_Structured.v`: the numbers of a dotted text (from `Spec_Version.v`), numbers written the usual way | the detections leave the parsed versions alone, so the structured getter is `Parse` of the text on the zero version; uniqueness of decimals without leading zeros. String() refuted ("1.2.3" becomes "1.2.3.0"), proved for four-component texts; partial |
| C62 | `Spec_Word.v`: word characters, where a word starts, languages from `Spec_Regex.v`; the wrapper texts are spelled out in `Spec_Database.v` | the parser, run on a pattern followed by `)` or `[`, reads the pattern as it does alone (induction on the fuel of the mutually recursive parser); decoding of UTF-8 is not disturbed by a following ASCII byte; then C58. Shipped tables: each source is stripped of the wrapper and compared by computation |
| C63 | `Model_Single.v`: the lines of main.go as pieces run one after the other with a private cache that may lose its row between any two steps; `Spec_Single.v`: the list of questions and the text of an answer | induction over the lines with C20 (answers on a private cache are those of a fresh context); the difference to the version text by a small database |
| C64 | `Model_Single.v`: `passURL` on a map from paths to contents, network and write success arbitrary per run; `Spec_Single.v`: the first successful fetch for the segment | induction over the runs: each path holds the first fetch for its segment |
| C65 | tables `built K D` of any database; `Spec_DbPanic.v` says when an entry refers to a missing group, over the database only | exact panic condition of each detection over arbitrary tables whose ranges fit, then the correspondence of entries and tuples of C53-C57 in both directions |
| C66 | `Model_Threads.v`: goroutines as sequences of single accesses to the map, the slice and the fields of rows, with mutex, `sync.Once`, the `go` statement and the cleaner; a trace of events. `Spec_Race.v`: happens-before of the Go memory model and data races over traces | a locking discipline for code (a row belongs to its goroutine until published; afterwards only the stamp changes, under the mutex); invariant over states and traces; termination by the structure of the code; the race by an explicit schedule |
| C67 | the machine of `Model_Threads.v` against the interleavings of whole calls of C22 | simulation: a critical section run to its end from the present memory gives the effect of one call of `Model_Cache.v`, up to addresses of rows; steps of others do not change what it reads |
| C68 | the trace of cache calls (`Spec_Traffic.v`) of the programs of `Model_Parse.v` | weakest precondition with counters; invariant: look-ups so far ≤ flags set in the context, and the row has the flags of the context or the context has none. For single getters a budget under every answer. **Refuted for a shared cache**: reading a row replaces the flags of the context by those of the row, so a context forgets what it has detected (`C68_shared_refuted`) |
| C69 | `Spec_Order.v`: two databases that are equal up to the order of the pairs of each map (keys distinct) | sorting by distinct keys forgets the order (sorted permutations are equal); the names of engines are collected into a set first, so only membership counts; structural induction over entries |
| C70 | `Model_Emit.v`: the text handed to `format.Source`, file by file; `Spec_Go.v`: a lexer of Go (comments, automatic semicolons, identifiers, integers, both kinds of string literals) and readers of the five declarations, with the range of each integer type and distinct keys of map literals | the lexer is driven over the text piece by piece (a lemma per token), the readers over the tokens; numbers by inverting `hex`. From databases (`Spec_Emit.v`): an invariant of each compiler module (entries below 2⁶⁴, indexes bounded by the lengths of tables, patterns without back-quotes since `normalizeRegex` only copies and removes). **Refuted** without each condition: `$128`, a back-quote, a carriage return, a quote in a threshold, two hint keys with one hash |
| C71 | `Spec_Starts.v`: the patterns uaxplc checks, and what is made of them | the parser's success does not depend on the case flag or the accumulated expression; a pattern followed by text that starts with none of the quantifier characters parses, branch by branch, as before; invariant of the compiler modules: every pattern kept was accepted. The shipped tables by evaluation. **Refuted** for unchecked patterns: the engine name `C++`, the vendor pattern `foo++`. Limits of package regexp on nesting and size are not modelled |
| C72 | `Model_Parse.v`; `Spec_Narrow.v`: one filter within another, filters put together | a class that finds nothing leaves the context as it was, a class that finds something does not look at the filter; so the two runs differ in the filter only (blindness of C52, at one context) |
| C73 | `Model_Batch.v`: the machine of C46 with the analysis taken apart into pool, getters and single cache calls; `Spec_Batch.v`: the answers of a row | rows with different hashes: each worker's piece of the shared cache is private, so the run of its getters ends like one with a private cache (C18/C63); simulation of the machine of C46; completion by the weight of C46 |
| C74 | `Model_Built.v`, `Model_Parse.v`; `Spec_Depends.v`: kinds of questions, databases that agree | the programs of the getters are the same functions of the table fields they use; for brand and model the detour through the OS in the notebook class keeps the brand, model and buffer of the context |
| C75 | `Model_Built.v`, `Model_Parse.v`; `Spec_Agree.v`: the same first entry, lists padded with entries that do not apply, the same hits | each answer is determined by the relations of C53-C56, which are shown to be functional and to mention only the entries that apply |
| C76 | `Model_Parse.v`, the shipped tables; no further specification | checks over the tables (names inside the buffer, not starting with a space, the letters UNK not in the buffer); for the two OS entries with a captured name a static analysis of the pattern, proved sound against the parse trees of C58: group 1 takes part in every match and captures one of finitely many texts |
| C77 | `Model_Regex.v`: `parse_re`, `re_find`; `Spec_Syntax.v`: grammar, how it is written, what it denotes, number of groups | parsing what is written gives an expression with the same language (induction over the grammar, one lemma per construct), then C58's theorem about the matcher. For the tables: a reader from runes to the grammar and a checker, run over all patterns; that the reading is right follows from writing it again and comparing |
| C78 | `Model_Compiler.v`: `normalize`; `Spec_Syntax.v` with look-arounds, `Spec_Widen.v`: the pattern without them, the conditions | the pattern is cut into text and look-arounds; the search for the opener, the count of brackets and the removal of the first equal text are shown to remove one look-around each time (no other place can match, and equal look-arounds are interchangeable); then the meaning of the rest by C77 |
| C79 | `Model_Stale.v` over `Model_Memory.v`: `GetModel` with bounds checked against the capacity; `Spec_Stale.v`: the life of a context with its memory | the array of the buffer is the contents followed by the rest; slices inside the contents do not see the rest. The leak: computed records of two user agents, memory followed step by step. Other getters: C60 with C35-C37 |
| C80 | the parsers of `Model_Parse.v` with two sets of tables; `Spec_Upgrade.v`: records left by one program, texts that continue others; `built` for the compiler | a hit is one look-up after which every getter reads one position of one buffer; positions inside a prefix read the same; the compiler only appends to its buffer. Refutations computed on the tiny database |
| C81 | the hit branch of the parsers with an arbitrary record; `Spec_Damage.v`: which buffer and which field each getter reads | each getter after a hit is a slice at one position, followed by trimming or replacing; slices panic exactly outside, and give parts. One byte: computed |
| C82 | `Model_Share.v`: contexts in a heap, the pool as a multiset of pointers, users with numbers; getters end as any cache answer allows | invariant: pointers in the pool are distinct, unowned and point to new contexts; owners are unique; what an owner has done is a history of a new context. Refutations: explicit histories |
| C83 | `Model_Cache.v`; the ticker as passes at most half a minute apart (`regular`) | invariant: after a pass at most n expired rows are left (a pass halves the old ones and those that expired since, each at most n); the stamps of the rows are distinct calls, so live rows are counted by the calls of 121 half minutes |
| C84 | `Model_Uaxplc.v`: Go's flag parser for string flags, `Validate`, reading of the input, `filepath.Base`, formatting and writing; the file system, YAML and `format.Source` are arbitrary functions | the parser against the four ways of writing a flag (`says`), both directions; reading against `Forall2`; C70 for the texts |
| C85 | `Model_Main.v`: the order of opening, reading and writing around the modes of `Model_Single.v` and `Model_Cli.v` | cases of the run; C46 for the reports |
| C86 | `Model_Readers.v`: the getters of ctx.go and Version.Parse as trees of single reads and writes; a detection is one step writing everything | agreement with `Model_Parse.v` by simulation; invariant over interleavings: only reads are left |
| C87 | `shipped` and the searches of `Model_Parse.v`; `Data_Witness.v`: a user agent for each live entry | a sound inclusion check between patterns (`Proof_Covers.v`); each witness checked by a matcher proved complete (`Proof_Quick.v`, `Proof_Index.v`); thinned tables by simulation (`Proof_Dead.v`) |
| C88 | `shipped`, `run_getter`; the pattern is the one of device_repo.go | the texts "Android " + character are included in the language of the pattern, character by character (`Proof_Covers.v`); the witness by the index of `Proof_Index.v` and C26 |
| C89 | `shipped`, `run_getter`; the patterns are those of device_repo.go | patterns without `^` do not depend on what precedes (`nobol_lang`), checked entry by entry; the words by inclusion of languages (`Proof_Covers.v`); the witness by the index of `Proof_Index.v` |
| C90 | `Model_Command.v`: package flag with the seven flags, strconv.ParseInt with base 0, strconv.ParseBool, in front of `Model_Main.v` | the parser against a grammar of command lines and of Go's integers, in both directions; the last setting of each flag by induction |
| C91 | `Spec_OsInside.v`: words and entries; `says`, `starts_word` of C89 | patterns without `^` match wherever they stand (`nobol_lang`); words against patterns by the cover check of C87 |
| C92 | `Spec_Session.v`: `session` runs the calls of the model, `in_force` says for each getter which settings count | detections do not read the other group's filter (`blind_*`), so a context whose filter changed is in step with one that had it from the start (`inv`); induction over the calls |
| C93 | `Spec_Bare.v`: `weight` counts letters, digits and bytes beyond ASCII | `need` bounds from below the letters and digits any match of a pattern has; checked for every entry of the three tables, the vendor fragments and the two words |
| C94 | `Spec_Charset.v`: `plain`; the getters and the shipped tables as elsewhere | a group captures a text of one of its bodies, whose classes bound its characters (`clean_re`); checked for every entry and sub-version |
| C95 | the shipped operating system tables | with C94_os_version; one user agent for each text |
| C96 | `Spec_Charset.v`: `calm`; the getters and the shipped tables as elsewhere | every name is a text of a table (checked) or a group whose bodies are calm (as in C94) |
| C97 | `Spec_Family.v`: `version_number`, `chrome_ua`, `edge_ua`, `firefox_ua`; matcher and shipped tables as elsewhere | a family is a sequence of character classes; the places of it at which a pattern can end are computed once for all members as bit sets (`go_ok`), which shows that no earlier entry applies; the version group is found by the preference order of `\d+[.\d]+` (`best_top`) |
| C98 | `Spec_Family.v`: `frozen_ua`, `plain_desktop`; matcher and shipped tables as elsewhere | as in C97, no device pattern, vendor fragment or word ends anywhere in the frozen families (bit sets over all members at once); the system then decides; witness for the refutation evaluated |
| C99 | `Spec_Family.v`; engine function and thresholds as in C39 | the selected entry and its version fragment are known from C97; C39 then gives the engine |
| C100 | `Spec_Ios.v`: `ipad_ua`, `iphone_ua`; matcher and shipped tables as elsewhere | as in C98, no earlier vendor and none of the earlier models of Apple ends anywhere in the two families; the entries of Apple and of iPhone X hit inside every member; C36 then gives the answers |
| C101 | `Spec_Phone.v`: `android_ua`, `release_number`; matcher and shipped tables as elsewhere | as in C97 for the entries; the two groups are followed through the preferred match: the fixed text on both sides of a version forces its extent, and the part before the release can only end at the space |
| C102 | `Spec_Library.v`: `library_ua`, `libraries`, `patch_release`; matcher and shipped tables as elsewhere | as in C97 with the class of the libraries instead of the browsers; no system, device or vendor pattern can match inside the family, except one device pattern, and that one applies to every text with `requests` |
| C103 | `Spec_Iphone.v`: `iphone_safari`, `joined`, `ios_release`; matcher and shipped tables as elsewhere | six families of texts, by the digits of the first numeral and by whether more follow; the preferred match of the release pattern takes every numeral because a longer match exists as long as a separator and a digit follow |
| C104 | `Spec_Priority.v`: `o_alts` (the ways to match in order, over the written pattern), `finds_first`; `Model_Regex.v` | the matcher takes the first way of the expression (`ways`); the parser builds an expression with the ways of the written pattern, by induction over the syntax; the ways are determined |
| C105 | `Spec_IphoneOther.v`: `iphone_other`, `iphone_browsers`, `full_release`, `not_19`; matcher and shipped tables as elsewhere | families of texts by the digits of the release and of the version; the pattern of the release also matches at the name of the browser, but the leftmost match counts, and it starts at the first iPhone |
| C106 | `Spec_Derived.v`: `added`, `derived`; matcher and shipped tables as elsewhere | families of texts as for C97; the part of the pattern before the version never ends in a digit or a dot, so the version captured is the last run of digits and dots |
| C107 | `Spec_Reference.v`: `Huge`, `low_byte`; `IsInt` of `Spec_Version.v`; `parse_int`, `client_version64`, `parse_inx` in `Model_Compiler.v` | by cases on the sign; digits are read from left to right, and the number read is the one denoted; reading stops early exactly if a prefix exceeds 64 bits |
| C108 | `Spec_GroupRead.v`: `fate_of`, `comes_to`; `client_version` in `Model_Parse.v`, `compile_client1` in `Model_Compiler.v` | the compiled number by C107; the step of the parser by cases on its doubling in eight bits; the panic of a small library by evaluation |
| C109 | `Spec_SystemRead.v`: `ends_in`, `number_meant`, `no_dollar`; `fate_of` of `Spec_GroupRead.v`; `os_hit` in `Model_Parse.v`, `compile_os1` in `Model_Compiler.v` | the compiled numbers by C107; an entry that applies reads its name and then its version, each by cases on the doubling in eight bits |
| C46 | `Model_Cli.v`: producer, workers, bounded channel, mutex, counter, crash as a transition system | invariant over all schedules + decreasing measure; with a panicking row or zero threads the batch never finishes |
| C47 | `Model_Memory.v`: the arrays behind `c.src` and `c.buf`, Go `append`, strings as windows | refuted twice: by reuse, and by a cache hit of the same context; proved: where every returned string lives, appends keep all strings, and strings outside the working buffer survive every getter |

## 4. Trusted base

### 4.1 What has to be believed

* **The Coq 8.16.1 kernel**, including its virtual machine for `vm_compute` (the gate re-checks every module with
  `coqchk`, which does without the virtual machine).
* **Axioms: none.** `Print Assumptions` stands beneath every property theorem and prints *Closed under the global
  context* for each of them. `coqchk -o` lists seven axioms of `Coq.ssr.ssrunder`; they belong to the standard library
  (`ssreflect`'s `under` tactic, loaded with `Lia`), no theorem depends on them.
  No module type, functor, `Variable` outside a section, plugin or switched-off check is used.
* **The reading of the code** in `Model_*.v`, definition by definition, and the reading of the tables by
  `tools/gen_tables.py` (a text-to-text translation of the composite literals of `*_repo.go`).
* **The contract of the dependencies** listed in 4.3.

### 4.2 Code that is modelled

| code | model |
|---|---|
| `version.go` | `Model_Version.v` |
| `tokenizer.go` | `Model_Tokenizer.v` |
| `cache_entry.go` | `Model_CacheEntry.v`, `Model_Ctx.v` (`FromCtx`/`ToCtx`) |
| `uaxpl.go` (`SetCache`) | `Spec_Honest.v` (any honest cache in place of the built-in one, C60) |
| `cache.go` (get, set, clean; clock as input) | `Model_Cache.v` (rows on a heap, pointers) |
| `ctx.go`, `alias.go`, `conv.go`, `pool.go`, `const.go` | `Model_Ctx.v`, `Model_Parse.v`, `Model_Memory.v` (where returned strings live) |
| `client.go`, `device.go`, `os.go`, `vendor.go`, `client_parser.go`, `engine_parser.go`, `device_parser.go` | `Model_Ctx.v`, `Model_Parse.v` |
| `*_repo.go` (all tables, including every pattern and the engine functions) | `Data_*.v`, `Model_Shipped.v` |
| `cmd/uaxplc`: `buf.go`, `mod.go`, `regex.go`, the compilation of the five modules | `Model_Compiler.v`, `Model_Built.v`, the written text `Model_Emit.v` |
| `cmd/uaxplc`: `main.go`, `mod_bot.go`, flags, reading and writing of files | `Model_Uaxplc.v` |
| `cache.go`, single memory accesses | `Model_Threads.v` |
| `ctx.go` getters and `version.go` `Parse`, single memory accesses | `Model_Readers.v` |
| `cmd/uaxpl/main.go` | `Model_Cli.v` (batch mode, goroutines and channel), `Model_Single.v` (`-ua`, `-url`), `Model_Main.v` (the order of opening, reading and writing), `Model_Command.v` (flags) |

### 4.3 Code that is not modelled

* `cache.go`: the memory model of C66 and C67 is sequentially consistent interleaving plus happens-before, which is what Go
  guarantees for race-free programs; the slice of rows counts as one location. The ticker of `init` may fire at any moment.
  Data races are considered for the cache (C66) and for getters of one `Ctx` (C86, where a detection counts as a write of
  the whole context); setters during getters, and `SetCache`, are outside.
* `generate.go`, logging of the two programs, reading of YAML
  and JSON (`yaml.Unmarshal`, `json.Unmarshal`), HTTP (an arbitrary function in C64), `format.Source` (trusted to keep the tokens of a file; C70 is about its input).
* Go's garbage collector, allocation failure, and slices longer than memory.
* Dependencies, by contract: `regexp` (see below), `entry.Entry64` (two 32-bit halves), `bitset.Bitset`,
  `bytealg`/`fastconv` (no-copy conversions), `hash/fnv`-compatible `fnv.Hash64String` (FNV-1), `sync.Pool`
  (any earlier context, or a new one), `strconv.Itoa`/`strconv.ParseInt`, `strings.ToLower` for ASCII letters.
* `regexp` is modelled by a parser of the syntax used here and a backtracking matcher; C58 proves the matcher against a
  declarative leftmost-first semantics. Supported: literals, `.`, `^`, `$`, classes with ranges,
  negation and `\d \w \s`, groups, `(?:…)`, a leading `(?i)`, alternation, `* + ? {n} {n,} {n,m}` and their lazy forms.
  Any other pattern parses to nothing and never matches. Case folding covers ASCII letters and the two non-ASCII letters
  Go folds to `k` and `s`. The matcher backtracks; it agrees with Go's automata because no shipped pattern stars an
  expression that matches the empty text (`star_ok`, checked for each).
  Every pattern of the shipped tables parses (`Proof_Parses.v`).

### 4.4 Validation of the model (tests, not proofs)

* *Regular expressions:* all client, OS and vendor patterns on the 2370 user agents in `/repo/testdata` and all device
  patterns on 150 of them, compared with Python's `re`: 26631 matches, all positions of all captures equal.
* *Compiler:* the shipped tables were decompiled to a database, and that database compiled with the model; the result equals the
  shipped tables: client (inside Coq), OS, vendor and device (16062 models; with a Python port of the Coq definitions). Hint keys
  cannot be recovered from hashes.
* *Getters:* the examples in `Prop_*.v` run the getters on the shipped tables.
* *Found while stating C107:* the model of `strconv.ParseInt` treated a number beyond 64 bits followed by a non-digit as malformed;
  Go reports it as out of range. Corrected (`too_big` in `Model_Compiler.v`); no earlier theorem depended on the difference.

### 4.5 Mutation of the model

`seeded/mutants.py` lists realistic bugs as edits of model definitions, each with the properties whose English claim it makes
false; `tools/mutate.py` applies one in a scratch copy, rebuilds everything that depends on it and reports the theorems that
no longer prove. `seeded/LOG.jsonl` holds one line per run. A bug that left a theorem standing although the claim
was false led to a stronger theorem (field `tightened`). Repairs of the refuted properties are among the bugs: there the `_refuted`
theorem has to fail.

### 4.6 Findings: properties the code violates

Each is proved with a witness (`…_refuted`), on the shipped tables unless it concerns a table-independent function.

| id | what happens |
|---|---|
| C07, C61 | `Version.String` adds `.0` components and drops leading zeros: text does not round-trip |
| C08 | components wrap beyond 32 bits |
| C09 | `Write` of the zero version writes `0` only into an empty buffer |
| C11 | the tokenizer panics on byte 0xFF (its table has 255 entries) |
| C15 | a pass of `clean` skips the entry after each one it removes |
| C17 | one row under two keys is freed twice |
| C18 | two user agents with one 64-bit hash read each other's rows |
| C21 | the cached row holds the user agent but not the buffer with the model: `GetModel` of a cached row returns a piece of the user agent |
| C23, C25 | filters are not part of the cache key; the fallback types ignore the device mask |
| C30, C31 | `SetRequestedWith` before `SetUserAgent` is lost; an unknown header turns the browser into `UNK` |
| C37, C38 | eight client entries name a group their pattern does not have: index out of range; the context keeps half a result |
| C39, C45 | engine thresholds are compared as text, and only the textually smallest is used; every browser with threshold 28 (Chrome among them) is given WebKit for versions 100 to 279 and Blink for 3 to 9 (`C39_blink_28`) |
| C41 | TV and shell TV are both `tv` |
| C42, C44 | the compiler's buffers wrap at 4 GiB; `hex` of the least `int8`/`int32` is no literal of the type |
| C43 | `normalizeRegex` recreates look-behind groups, counts brackets inside classes, and takes the bracket behind an escaped backslash for an escaped one |
| C46 | the batch mode with zero threads never ends; a panic in one row ends the program without the other rows |
| C47, C48 | returned strings alias the context's buffers; each call of `GetOSVersionString` appends for versions with `_` |
| C49 | the two rules against taking Mac for iOS and "like Android" for Android never apply |
| C50, C51 | five browser names contain a literal `$1`…; the README's example is wrong |
| C59 | entries without special characters are compared with their letter case |
| C63, C64 | the CLI prints versions differently from the library's text; `-url` analyses another URL's file with the same last segment |
| C65 | an empty file or a template ending in `$` would make the library panic |
| C68 | a context that shares the cache repeats detections: `fromCache` replaces its flags by those of the row another context stored |
| C70 | uaxplc writes files that are not Go, or are Go with other tables: a back-quote in a pattern ends its literal (and what follows it is taken as Go), a carriage return is dropped, a quote in an engine version ends its literal, `$128` is written `-0x-80`, two keys of hints with the same hash (`com.ma0kdu3qiladp`, `com.1esfbtudyp5ac`) are a duplicate key |
| C71 | vendor patterns and names of engines are written into patterns without being checked: an invalid one makes the package panic when it is initialised |
| C72 | `FilterDeviceType(DeviceTypeTablet)` or `DeviceTypePhablet` switches every device class off: no class has these bits |
| C73 | batch mode: the second of two rows with the same user agent gets a wrong model from the cache and is reported as a mismatch |
| C74 | the device type can change when only the OS database changes; a program built without any OS entry panics in OS detection and in most device detections (`_ = r[rl-1]`, os.go:61) |
| C75 | adding a client entry that does not apply to a user agent can change the engine version reported for it, because the version is read only for engines whose name occurs somewhere in the client files |
| C76 | an engine function may return the empty name (Konqueror 4): it is packed as a non-zero value, so neither the engine patterns nor the Blink test are tried and the engine is empty although the user agent names one |
| C78 | `strings.ReplaceAll(s, ")||(", ")|(")` removes an alternative that matches the empty text: `(a)|(?!b)|(c)` becomes `(a)|(c)`, which matches less. A capturing group in a look-around disappears and $n in names and versions then means another group |
| C79 | a cached record holds the user agent where the context's buffer held the model text, so the bounds of the model may lie beyond the copied data: `c.buf[lo:hi]` then shows, up to the capacity, what an earlier user of the pooled context left there (part of another visitor's user agent), and panics beyond the capacity |
| C80 | records hold positions in the generated buffers and nothing that identifies the build: after an upgrade with a changed database an external cache makes getters return other names of the database, parts of names, or panic |
| C81 | positions from the cache are not checked and records carry no checksum: one changed byte in an external cache panics inside a getter, in the goroutine of the caller |
| C82 | Put does not notice that a context is already in the pool (or still in use): a second Release of the same context makes Acquire return it to two callers, who then see each other's user agents |
| C84 | uaxplc exits with 0 and overwrites the repository file with empty tables when the input directory is misspelt or has no `*.yml` (no file read at all); it replaces every `~` of the input path, so `old~/oss.yml` is not found; module `bot` reports success without doing anything |
| C85 | `uaxpl -file x -out x` empties x before reading it: the data is lost and the run ends with a JSON error; so does a URL whose download is kept under the name of the output |
| C86 | `GetOSVersionString` appends to the context at every call when the version has underscores, so that even a fully analysed context cannot be read concurrently: two goroutines can get 9.19.1 for 9.1 |
| C87 | 55 entries of the shipped database can never be the answer, because an earlier pattern of the same list matches whenever they do: e.g. the system Gentoo, the browser entries for UCMini and UCTurbo, the phones TiPhone (reported as Apple), BenQ-Siemens (BenQ), Mione (Mio), YU Fly (Fly), and every device recognised only by `Android <version>` followed by its name (Motorola is reported) |
| C88 | The entry for Motorola (`(?i)MOT|DROID ?(?:Build|[a-z0-9]+)|…`) applies to every user agent with "Android <letter or digit>". The map `reReplDevice` (cmd/uaxplc/mod_device.go:42-46) is meant to rewrite it to `[^A][^N]DROID…`, but its keys are older versions of the pattern and no longer equal the one in the database, so nothing is rewritten. All Android phones whose entry is behind Motorola (alphabetically later: Nokia, OnePlus, OPPO, Realme, Samsung, Vivo, Xiaomi, …) are reported as Motorola (or as an earlier brand). custom_test.go notices but only logs it. |
| C89 | cmd/uaxplc puts a word-start condition in front of client patterns but none in front of device patterns (upstream adds one to all of them), so device names match inside other words: "python-requests" and "WinHttpRequest" are CUBOT phones (`QUEST`), "urlgrabber" is LG (`LG`), "sparklemotion" Motorola (`MOT`), "Goanna" Wiko (`GOA`). |
| C90 | `uaxpl -verbose true -file x` does not read x: a boolean flag takes no separate value, "true" ends the flags, and the program stops with "param [ua|file|url] is mandatory". `-threads 010` means 8. The flag -format is parsed and never used. |
| C91 | operating system names match inside words: `MyAppClient/1.0` runs on a Mac (`PPC`), every user agent with `palm`, `nitro`, `bada`, `mtk` or `aix` inside a word is a Palm, Nintendo, bada, MTK or AIX system unless an earlier entry applies |
| C92 | a filter set after a getter of its kind is silently ignored until the next `SetUserAgent`; a header set after the client was detected still counts for `GetBrowser`, but a new user agent forgets it (filters are kept) |
| C93 | two letters are enough to be recognised: every user agent containing `LG`, `K&M`, `HS_` or `PG-` is a phone of that brand, `OK)` and `FU;` are televisions (`LOOK)` is a television of the brand ok.) |
| C94 | the engine version patterns `(\d+(?:.\d+)+)` leave the dot unescaped: `WebKit/5<6` has the engine version `5<6`; Yandex Browser takes the whole match as version: `20.1 (beta)` |
| C95 | CFNetwork on Darwin 25 (iOS 26), 24, 23, 22, 21, 19 and macOS on Darwin 25, 24, 23, 19, 15, 14 have the versions `26.$1`, `18.$1`, ...; Windows servers have `Server $1`: uaxplc recognises a reference only at the start of a version (mod_os.go:194) |
| C96 | GetModel returns what the user agent says: `COWON <b> Build` is the model `<b>` |
| C97 | a version of one character (`Chrome/9`) is not reported, because the patterns ask for two |
| C98 | the patterns of Alcatel, onn, Thomson and vivo contain bare numbers with nothing required before them: Chrome 120.0.6099.8063 on Windows is reported as the tablet Alcatel One Touch Pixi 4 |
| C99 | every current Chrome (100 to 279) on a desktop system is reported with the engine WebKit instead of Blink |
| C100 | the pattern of iPhone X accepts a bare ` X` before a bracket (device_repo.go:19093), which matches `like Mac OS X)`: every iPad and every iPhone is reported as the phablet iPhone X |
| C102 | `device_repo.go:19802`: the pattern of CUBOT has the alternatives `CUBOT|QUEST(?: LITE)?|…` without any boundary, so a text with `quest` anywhere is taken for a CUBOT phone; `python-requests/2.31.0` is a library on a smartphone (`C102_requests`, `C102_phone_refuted`) |
| C105 | an entry for iOS 19 comes before the one for all releases and looks for iOS/19 anywhere, so it takes the version of CriOS, FxiOS or EdgiOS for the release when that version starts with 19; it then reports 26.$1, a constant in which the placeholder is never filled in |
| C107 | numbers of groups are converted to int8 without a check: $257 means group 1 and $255 no version; a client version that is no number silently becomes group 0, the whole match, and one that is too big becomes no version, whereas for operating systems both become group 1 |
| C108 | the check of a group number compares it with the number of ends, not of groups, and the number is doubled as an int8: $2 panics for a pattern with one group, $4 is ignored, $129 reads group 1, and $254 or $-2 panics for every pattern |
| C109 | the same two mistakes as in C108 for the version and the name of an operating system: $2 panics for a pattern with one group, $129 reads group 1, $254 panics for every pattern |
