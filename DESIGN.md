# Formal model of go-nix in Rocq (Coq 8.16.1)

## Layout

```
rocq/theories/Base/    data representation (bytes, Go maps, errors) and facts about it
rocq/theories/Model/   the model of /repo, function by function, plus models of the Go
                       standard library functions it calls; definitions only, no proofs
rocq/theories/Spec/    small independent specifications (file trees, NAR grammar, ...)
rocq/theories/Proof/   lemmas
rocq/theories/Props/   the property theorems: statement, `exact lemma`, Print Assumptions,
                       non-vacuity examples
rocq/theories/Check/   152 Examples: the model run on the fixtures and test tables of /repo (tests, not proofs)
                       + SqliteFixtures.v, SqliteTxFixtures.v: 72 random histories and 40 random transaction
                       interleavings recorded from a real SQLite, replayed in Model/Sqlite.v, Model/SqliteTx.v
tools/                 the two Python scripts that recorded them (not run by the build)
```

## Modelling conventions

* Go `string`/`[]byte` = `list byte` (`Init.Byte.byte`), so every value is a real byte.
* `error` results are values (`res A = Ok | Err | Panic`); run-time panics (slice bounds, nil
  dereference, send on closed channel, explicit `panic`) are modelled as `Panic` outcomes.
* uint64/int/byte arithmetic is on `N` with explicit `mod 2^64`/`mod 256` wherever it can wrap.
* A Go map is an association list with distinct keys in an *arbitrary iteration order*; every
  `range` over a map follows the list, so order independence is a theorem.
* `io.Reader` = a finite list of chunks (possibly empty) plus a terminal error, delivered by
  `Read` piecewise; theorems quantify over all fragmentations. `io.Writer` = accumulated output
  plus an arbitrary plan of failing calls.
* Goroutine + channels (NAR Reader and Writer) are modelled twice. `NarReader.v`/`NarWriter.v`
  are sequential state machines in which the two goroutines take turns at the rendezvous points.
  `NarConc.v`/`NarWConc.v` are small-step concurrent programs: two threads, shared variables,
  Go's unbuffered channels, any schedule. C73/C74 prove that the second refines the first for
  every schedule (with the exceptions they name), so the sequential theorems carry over.
* encoding/json is modelled as far as the code uses it (Json.v: encoding a Derivation, decoding a
  `__json` name and a listing). sha256, ed25519, the OS file system, net/http are parameters (universally
  quantified functions / section variables, which become ordinary quantified arguments of the
  theorems), never axioms. Badger is a log of atomic transactions; SQLite runs each statement as
  its manual says.
* Where a property is false of the code, a theorem `..._refuted` proves a concrete
  counterexample and `..._partial` theorems prove the strongest true version; the status is
  `partial` and the note says what is missing.

## Plan per property

| id | model | proof |
|----|-------|-------|
| C01-C05, C08 | wire Read*/Write* over chunked readers | characterise io.ReadFull on the flat stream by induction on fuel; C08 refuted by witness |
| C06, C07 | BytesWriter/BytesReader as state machines | invariant over histories of calls |
| C09-C13 | nixbase32 loops, byte shifts | bit-level invariant (bit m of the stream), induction over the loop |
| C14-C17 | ParseAny/Format, hex, base64 (Go's non-strict decoder) | codec round-trips by structural induction + finite sweeps; C15 refuted for base64 |
| C18 | CompressHash | induction |
| C19-C21 | storepath incl. path.Join/Clean | exact characterisation of Validate; C20 refuted |
| C22-C24 | scanner step per byte | fold_left over bytes; aligned-run characterisation; C24 refuted |
| C25 | PathIsLexicographicallyOrdered | equals (bytewise <=) or (component <=); refuted as stated |
| C26 | Header.Validate, Mode | case analysis |
| C27, C35-C37 | Writer state machine with explicit stack | induction over trees; invariants over histories |
| C28-C34 | Reader state machine with explicit stack and fuel | induction over trees / streams; C30's exact cut condition by induction over the archive's wire strings (Spec/NarCut.v) |
| C38, C39 | dumpPath over an inductive file system tree | induction over trees, reuse C27 |
| C40 | validateNode over trees | induction; refuted for leaves |
| C41-C44 | narinfo parse/print, fingerprint, check | round-trip by line; injectivity |
| C45-C48 | signature encode/decode, verify | base64 round-trip; ed25519 as parameter |
| C49-C60 | derivation encode/parse/validate/hash | round-trip through the bracket scanner; sorting uniqueness; relational proofs with sha256 a parameter |
| C49 (exact) | what was written is read back exactly for `neat` strings (Spec/RoundSpec.v) | read and written text compared side by side, array by array (Proof/DrvExact.v): what is read at a level is a prefix of what was written there or goes beyond it, and the body cannot go beyond itself |
| C53, C60, C49 (every order) | what Validate says for each order of the variables, without the function itself (Spec/ValidSpec.v) | the flag is decided by the last of the two variables (Proof/DrvValidOrder.v); a variable can be moved to the end; a text lists "__json" before "name" |
| C50, C72 (every text) | exactly the `neat_text`s come back unchanged, of all texts that can be read | a text says one derivation (array by array, Proof/DrvExactAll.v); with C49's exactness the written text is neat |
| C28 (listed) | exactly the trees in which nothing comes after an entry called ")" (Spec/NarParenSpec.v) are reported as they are; C66, C67, C83, C84, C120 hold for these | the grammar of C110, with the depth of every reported path compared with the depth of the node whose tokens are read (Proof/NarParenLast.v) |
| C28, C29, C113, C116 (paths) | the same condition said of the reported paths alone: what follows a path ending in "/)" is below it | paths of a tree compared in depth-first order (Proof/NarParenPath.v) |
| C84, C108 (exact) | exactly the listable writable trees survive a copy; exactly the conversations without an entry ")" are received part by part | injectivity of archives, C116's tree of the copy, C110's grammar (Props/CopyListedP.v, Props/StreamLastP.v); C113_exact, C116_read_again_exact in Props/BackExactP.v |
| C86 (exact) | exactly the narinfos with the same path, hash, size and `glued` references (Spec/GlueSpec.v) share a fingerprint with a signable one | the reference list of a fingerprint is split at its commas; each reference is a run of the pieces (Proof/NarInfoGlue.v) |
| C90 (exact) | `C90_exact` (JsonAlikeP.v): JSON printed for two derivations without nil fields, in any format and by any release, has the same value iff the fields agree, lists and maps in key order, up to `alike` strings (two strings that repair to the same one). Pure value-level argument: `jtext` has one value per text, `jrepaired` one result per value. |
| C61-C64 | MapStore/BadgerStore state machines | refinement to an abstract map, invariants; the proviso no_path_clash is reduced to collisions of the hash (C62_one_drv_a_path, Props/GraphP.v) |
| C65 | path mapping and status decisions | case analysis |
| C66, C67 | cat/ls loops over the Reader | reuse C28; C67 refuted |
| C68 | narinfo Parse then String | case analysis on the parser's result |
| C69, C70 | WriteDerivation with failing writers; output path calculation | induction over the write sequence; spec of the fingerprint text |
| C71 | NewFromURI on a parsed URL | case analysis |
| C72 | `drv show` over a store | reuse C49/C50, and C50_exact for which canonical texts come back |
| C73, C74 | Reader/Writer as concurrent threads | simulation invariant between every reachable configuration and the sequential run; a measure for termination |
| C75-C81 | SQLite tables as row lists, queries as relations | invariants over histories of statements ("the last write since ...") |
| C82-C87 | several packages together: dump, read, copy, sign, publish, fetch, verify | unique decoding of the NAR grammar; composition of C27-C29, C38-C49, C65-C67; C87 exactly, from `read_back_iff` (C49) |
| C88-C90 | the JSON encoder on derivations | a grammar of RFC 8259 as specification; induction on values; unique decoding via the decoder |
| C91-C94 | the JSON decoder into structs | the decoder is sound and complete for the grammar; structs specified member by member; C94 over every order of Go's map ranges |
| C95 | CalculateDrvReplacement with the hash object's state (written bytes, Sum, Reset) | as C70; the hash's state is threaded through DrvPath, hashStrings and the output loop |
| C96 | overlapping Put calls of the BadgerStore, one step per database transaction | invariant: replacement strings never change once stored, so the reads of a call still hold at its commit, which is the linearisation point |
| C97 | WriteUint64, ReadUint64, readPadding with the shared buffer pool, byte by byte | ownership invariant (no buffer in two hands), frame property of a step, refinement of the sequential functions |
| C98 | narinfo Parse, String | what Parse reads fits on lines (so [lossless] up to carriage returns and joined references), then C41's exact condition |
| C99 | StoreRe.v: the two patterns as syntax trees, matching as a relation | inversion of the relation; hash and name by induction on the repetition |
| C100 | GoUrl.v: net/url Parse (scheme, query, fragment, path) and GoUrlAuth.v (user, host, port), NewFromURI on texts | lengths: a path as long as the text must be the text; first-segment analysis |
| C101 | GoUrl.v: String, EscapedPath, getURL, constructRequest | unescape after escape is the identity; printed URLs split at the same places when parsed again; the same for user, host, IPv6 zone and port (UrlAuth.v) |
| C102 | Bufio.v: bufio.Writer, programs that write, gonix nar dump | a buffered writer is simulated by a writer with some failure plan that has got everything accepted; DumpPath is reified as a program (Proof/DumpClient.v); then C38, C39 |
| C103 | References.v on the output of NarDump.v | a byte that is no base32 digit splits the set of aligned occurrences; the last byte of a length below 2^56 is zero, tokens are short and followed by small lengths |
| C104 | NarWPtr.v: the Writer with the caller's header pointers and a heap | simulation by the by-value Writer; an entry on the emitter's stack encloses every valid header given since, so a struct that may change is not on the stack |
| C105 | DrvStorePtr.v: the MapStore with pointers and a heap | simulation by the store of values; what Get returns traced back to the last accepted Put |
| C106 | NarDumpOS.v: dumpPath over a world that answers every system call anew | success: the run is a run of NarDump.v on the tree of the answers given, then C39; converse and the unchanging world likewise |
| C107 | Handles.v: the dump and the stores with a trace of opens and closes | erasing the trace gives the other models; invariant of the writer's state (a live emitter has a content writer); FSStore.Get refuted |
| C108 | Wire.v, NarReader.v, NarDump.v on one stream | induction over the messages; C01, C28, C39 |
| C109 | NarReader.v on arbitrary streams | invariant: the parser's open directories are nested and contain the last reported path; with the order check every accepted path is the innermost open directory itself or a new child of it, hence component-wise sorting of all headers |
| C110 | NarReader.v on arbitrary streams | the accepted language as a grammar (Spec/NarAccept.v); the parser's steps as rules with a stack, equivalent to the grammar by mutual induction; completeness by induction on the rules, soundness by inverting every step of the parser and induction on the session |
| C111 | NewHash, NewHashWithEncoding, the Must variants, accessors | case analysis over the algorithms; C14 for the round trip |
| C112 | the method StorePath.Validate on arbitrary field values | the exact characterisation of Validate (C20) applied to what Absolute prints; position of the '-' by length arithmetic |
| C113 | NarWriter.v and NarReader.v, any successful history of calls | C36 gives the tree, the limits carry over to it by induction (Proof/NarBack.v), C28 reads it; witnesses for each limit |
| C114 | Derivation.v and DrvStore.v, recipe = everything Validate asks but the paths | calculated paths are valid store paths (C44/C45), filling keeps name and mask (C57), so the paths Put recalculates agree under every iteration order; graph invariant (C62) for the replacement string; badger through C63; witnesses for each exception |
| C115 | SqliteTx.v: db.go's New and WithTx over transactions with snapshot, write lock, failures, automatic rollback and crashes (trusted) | invariant on trace and world (Proof/SqliteTxProps.v): every open transaction's view replays a prefix's effects and its own statements; instances for the four databases give C75-C81 for committed effects; witness for automatic rollback |
| C116 | NarReader.v and NarWriter.v, any stream | reported paths are canonical and short (Proof/NarExtract.v), so the Writer's soundness (Proof/NarWriterSound.v, NarWriterTree.v for arbitrary paths) and exactness (NarWriterExact.v) apply; completeness by running the Writer on the headers (Proof/NarCopy.v); witness for a repeated directory |
| C117 | NarWriter.v and NarReader.v | the Writer's invariant describes the bytes of an unfinished archive by a zipper (Proof/NarWriterSound.v); by induction on it the Reader reports the closed part and enters the open directories (Proof/NarPipe.v) |
| C118 | Wire.v and NarReader.v | every function that takes the stream is local: it either enters the untouched part or acts on both streams alike (a predicate closed under sequencing), from a single Read up to any history of calls (Proof/NoLookahead.v) |
| C119 | Derivation.v (DrvPath, CalculateOutputPaths, the writer) | the text is a prefix code: equal texts of derivations with neat strings (C49) have equal fields, since every array of such a text has just the items that were written (Proof/DrvInjNeat.v); equal paths give equal digests of explicit fingerprints (Spec/DrvIdSpec.v), equal fingerprints give equal inner digests, and every step either cancels or names the two texts that collide. Refuted by witnesses for unescaped arguments and for names with slashes |
| C120 | NarInfo.v, Signature.v, NarDump.v, NarReader.v together | the fingerprint of a signed narinfo determines the claim of any parsed narinfo that has it (Proof/NarInfoVerify.v, C86_parsed_partial), C39 says what a successful dump wrote, the stated digest is the one of the file or names a collision, C28 reads the tree back; the converse from C85 |
| C121 | Derivation.v, NarDump.v, Storepath.v together | the recursive branch of CalculateOutputPaths computed for one output, whatever the others are; C39 says the dump wrote `nar t`, `nar` is injective (C82), so equal paths give equal fingerprints, equal digests, equal archives or an explicit collision |
| C122 | DrvStore.v | the log of accepted Puts (for badger: the transaction log, which a crash cuts short) lists every derivation behind its inputs; without repetitions it is a build order when equal paths mean equal inputs, which C119 reduces to collisions; a build order makes the relation 'needs' well-founded |
| C123 | DrvStore.v | induction along the build order with C61_accepts_graph_partial: the new store is the old one restricted to the paths already copied; C63 for badger |
| C124 | NarReaderMem.v (NarReader.v with a budget for each buffer) | the two models agree function by function when the budget is at least the limit passed to ReadBytesFull; witness below it; invariant on the paths of the open directories for the names |
| C125 | DrvParser.v, Derivation.v | what was read has its maps in order, so its text is determined (Proof/DrvExact.v read_facts, again_iff); the rest is the exact condition of C49; witness with an unbalanced string in last place |
| C126 | GoStd.v (hex, base64), Nixhash.v | a relational specification of base 16 and base 64 by the numbers denoted (Spec/HashTextSpec.v), induction over the groups of four, injectivity of big-endian values; the same for the fields of a narinfo and of keys (C42_text_exact, C45_exact) |

No property is "not expressible": each is at least partly a statement about an executable model.

## Trusted base

* Coq 8.16.1's kernel (coqc, no `-type-in-type`, no native_compute, no plugins; `vm_compute` is
  used in examples and finite sweeps, so the kernel's VM is trusted).
* Axioms: **none**. Every theorem in MANIFEST.json is followed in its file by
  `Print Assumptions`, which prints `Closed under the global context` for each of them. The
  standard library files that `lia` loads declare seven axioms
  (`Coq.ssr.ssrunder.Under_rel.{Under_rel, Under_rel_from_rel, Under_relE, Over_rel, over_rel,
  over_rel_done, under_rel_done}`, the sealed module behind ssreflect's `under` tactic); no
  theorem here depends on them. Only the Coq standard library is used.
* No `Admitted`, no functors, module types, or section-less variables. Section variables
  (`sha256`, `ed_verify`, `json`, ...) are generalised when the section closes.
* The model is a hand translation: that the definitions in Model/ say what the Go code does is
  checked by reading (each carries its file and lines), not by a proof. Likewise that the
  statements in Props/ with the definitions in Spec/ say what properties.jsonl says.

## What is modelled

| code | model | remarks |
|------|-------|---------|
| pkg/wire (all) | Wire.v, WirePool.v | the buffer pool and concurrent use of it are in WirePool.v; Wire.v is the single-call view |
| pkg/nixbase32 (all) | Nixbase32.v | |
| pkg/nixhash (all) | Nixhash.v, GoStd.v | encoding/hex and encoding/base64 (non-strict decoding, newlines ignored) written out; `MustParse*` = the same with a panic |
| pkg/storepath | Storepath.v, StoreRe.v | path.Join/Clean written out in GoStd.v; the exported regular expressions in StoreRe.v |
| pkg/storepath/references (all) | References.v | |
| pkg/nar header, util, types | Nar.v | both variants of Mode |
| pkg/nar reader | NarReader.v, NarConc.v, NarReaderMem.v | the recursion of parseNode is an explicit stack |
| pkg/nar writer | NarWriter.v, NarWConc.v, NarWPtr.v | the recursion of emitNode is an explicit stack; headers are values except in NarWPtr.v |
| pkg/nar dump | NarDump.v, NarDumpOS.v | NarDump.v: the file system is a tree with unreadable, special and vanishing nodes that does not change otherwise during a dump; symlink targets and modes as given. NarDumpOS.v: every system call is answered anew |
| pkg/nar/ls | NarLs.v, Json.v | the JSON decoder is written out; errors carry no text |
| pkg/narinfo | NarInfo.v, Scanner.v | bufio.Scanner written out; strconv, strings.Cut/Fields/Join in GoStd.v |
| pkg/narinfo/signature | Signature.v | ed25519 and rand as parameters |
| pkg/derivation | Derivation.v, DrvParser.v | sha256 as a parameter; the `__json` decoder is a parameter, instantiated with Json.v in C91, C92 |
| pkg/derivation/store map, badger, util | DrvStore.v, DrvStorePtr.v | derivations are values except in DrvStorePtr.v; badger: log of atomic transactions, iteration in key order; the two loops of one Put over the same map use the same order (the outcome does not depend on it except in the text of an error) |
| pkg/derivation/store filesystem, http, uri | StoreBackends.v, Handles.v | os.Lstat/Open, the HTTP round trip and url.Parse are the environment |
| net/url as used by uri.go and http.go | GoUrl.v, GoUrlAuth.v | Parse and String (Go 1.20); user and host are kept in their printed form; http.NewRequest's removal of an empty port is left out |
| cmd/gonix nar cat, nar ls, nar dump, drv show | Cmd.v, Bufio.v | kong's argument parsing and main are not modelled, the JSON formats of `drv show` are in Json.v |
| encoding/json (Go library), as used | Json.v | scanner, unquoting, case folding of keys, merging of repeated members, number ranges, nesting limit; encoder with HTML escapes, U+FFFD, SetIndent. One parameter: whether the release writes \b and \f short (Go 1.22) |
| pkg/sqlite (all) | Sqlite.v, SqliteTx.v | SQLite engine and database/sql trusted: the semantics of each statement, snapshots, the write lock, atomic commit; in-memory DSNs (one database per connection) and the opening of the database are not modelled |

Not modelled: memory except for the buffers in NarReaderMem.v (elsewhere sizes up to 2^63 are representable
and allocation never fails), time, the Go
scheduler beyond "any interleaving", data races inside the standard library, context
cancellation (an error from the environment covers it), test helpers.

## Tests of the theorems

`seeded/LOG.jsonl` records edits of the model made the way a bug would change the program, with
the theorems that then no longer prove. The driver replaces each broken proof by `Admitted` in a
scratch copy, rebuilds, and lists the manifest theorems whose assumptions then are not closed.
