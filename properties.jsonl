{"id": "C01", "title": "Wire fields round-trip", "statement": "A uint64, bool, bytes or string field written with the Write* function and read back with the matching Read* function yields the same value and leaves the reader positioned exactly on the first byte after the field, whatever follows it and however the underlying reader fragments the data.", "quantifier": "every uint64 below 2^64, every bool, every byte string (shorter than 2^64), every trailing data, every max >= length, every split of the stream into Read results including empty reads", "why_tests_cant": "the value, length residue mod 8, trailing data and fragmentation are all unbounded", "anchors": ["pkg/wire/read.go: ReadUint64, ReadBool, ReadBytesFull, ReadString", "pkg/wire/write.go: WriteUint64, WriteBool, WriteBytes, WriteString"]}
{"id": "C02", "title": "Wire field layout", "statement": "WriteBytes and WriteString emit exactly: the length as 8 little-endian bytes, the content, then the least number of zero bytes that makes the total a multiple of 8; WriteUint64/WriteBool emit exactly 8 bytes.", "quantifier": "every byte string and every uint64", "why_tests_cant": "holds for every length residue and every content, not for sampled ones", "anchors": ["pkg/wire/write.go: WriteBytes, WriteString, writePadding"]}
{"id": "C03", "title": "Reads do not depend on fragmentation", "statement": "For every input stream, valid or not, the result (value or error) of every wire Read* function and the position it leaves the stream at depend only on the concatenated bytes and the terminal error of the stream, never on how the stream is cut into Read results.", "quantifier": "all pairs of fragmentations of all streams, all terminal errors", "why_tests_cant": "fragmentations are an unbounded schedule chosen by the OS/network", "anchors": ["pkg/wire/read.go", "pkg/wire/bytes_reader.go"]}
{"id": "C04", "title": "ReadBytesFull respects its limit", "statement": "ReadBytesFull/ReadString never return more than maxBytes bytes; if the length field exceeds maxBytes they fail having consumed exactly the 8 byte length field; otherwise a stream that holds the whole field is accepted.", "quantifier": "every stream, every maxBytes", "why_tests_cant": "adversarial length fields range over all of uint64", "anchors": ["pkg/wire/read.go: ReadBytesFull, ReadString"]}
{"id": "C05", "title": "ReadBool accepts exactly 0 and 1", "statement": "ReadBool succeeds exactly when the next 8 bytes are the little-endian encoding of 0 or of 1, and then returns false respectively true.", "quantifier": "every 8 byte prefix and every stream", "why_tests_cant": "2^64 possible fields", "anchors": ["pkg/wire/read.go: ReadBool"]}
{"id": "C06", "title": "BytesWriter protocol", "statement": "For every sequence of Write and Close calls on a BytesWriter over a working writer: the emitted content never exceeds the declared length; a Write that would exceed it is rejected and writes nothing; Close succeeds exactly when the declared number of bytes was written, after which the output is the complete wire field of the concatenated writes; closing again changes nothing.", "quantifier": "every declared length and every finite history of Write/Close calls", "why_tests_cant": "histories of calls are unbounded", "anchors": ["pkg/wire/bytes_writer.go: NewBytesWriter, Write, Close"]}
{"id": "C07", "title": "BytesReader protocol", "statement": "After ReadBytes, any sequence of Read calls with any buffer sizes returns consecutive pieces of the field's content and nothing beyond it; Close after any of them skips the unread content and the padding and leaves the stream on the next field; Close fails if the padding holds a non-zero byte or is cut short.", "quantifier": "every content, every sequence of read sizes, every fragmentation", "why_tests_cant": "schedules of partial reads are unbounded", "anchors": ["pkg/wire/bytes_reader.go: Read, Close", "pkg/wire/read.go: ReadBytes, readPadding"]}
{"id": "C08", "title": "String fields with bad padding are rejected", "statement": "ReadBytesFull/ReadString fail when the padding after the content contains a non-zero byte or is missing.", "quantifier": "every field with every non-zero or truncated padding", "why_tests_cant": "all paddings of all lengths", "anchors": ["pkg/wire/read.go: ReadBytesFull (defer rd.Close())"]}
{"id": "C09", "title": "nixbase32 decode inverts encode", "statement": "DecodeString(EncodeToString(b)) returns b without error.", "quantifier": "every byte string of every length", "why_tests_cant": "unbounded lengths and contents, all bit alignments", "anchors": ["pkg/nixbase32/nixbase32.go: EncodeToString, DecodeString, Decode"]}
{"id": "C10", "title": "nixbase32 encodings are canonical", "statement": "If DecodeString accepts s then re-encoding the result gives back exactly s; hence no two strings decode to the same bytes. A string is accepted exactly when its length is the encoded length of some byte count, all characters are in the alphabet and the unused high bits are zero.", "quantifier": "every string", "why_tests_cant": "non-canonical inputs are adversarial and unbounded", "anchors": ["pkg/nixbase32/nixbase32.go: DecodeString, EncodeToString"]}
{"id": "C11", "title": "nixbase32 lengths and alphabet", "statement": "EncodeToString(b) has length EncodedLen(len(b)) and uses only Alphabet characters; DecodeString(s) returns DecodedLen(len(s)) bytes; DecodedLen(EncodedLen(n)) = n for every n; Is(c) holds exactly for the bytes of Alphabet.", "quantifier": "every byte string, every n, every byte", "why_tests_cant": "unbounded n", "anchors": ["pkg/nixbase32/nixbase32.go: EncodedLen, DecodedLen, Is, Alphabet"]}
{"id": "C12", "title": "ValidateString agrees with DecodeString", "statement": "ValidateString(s) returns nil exactly when DecodeString(s) succeeds.", "quantifier": "every string", "why_tests_cant": "disagreements sit at rare lengths", "anchors": ["pkg/nixbase32/nixbase32.go: ValidateString, DecodeString"]}
{"id": "C13", "title": "Decode/Encode into caller buffers", "statement": "Decode(dst, src) writes the decoded bytes to the first DecodedLen(len(src)) bytes of dst and leaves the rest of dst alone, whatever dst held before; it does not panic for any dst.", "quantifier": "every dst contents and length and every src", "why_tests_cant": "buffer sizes and stale contents are unbounded", "anchors": ["pkg/nixbase32/nixbase32.go: Decode, Encode"]}
{"id": "C14", "title": "Hash Parse inverts Format", "statement": "For every well-formed hash (digest length matches the algorithm), ParseAny(Format(e, includeAlgo)) with the algorithm given either in the string or as optAlgo returns the same algorithm and digest, and remembers the encoding e, for each of Base16, NixBase32, Base64 and SRI.", "quantifier": "every algorithm, every digest of the right length, every encoding, both includeAlgo", "why_tests_cant": "digests are unbounded in number; all bit patterns", "anchors": ["pkg/nixhash/hash.go: Format", "pkg/nixhash/parse.go: ParseAny"]}
{"id": "C15", "title": "ParseAny yields a digest of the algorithm's length", "statement": "If ParseAny succeeds, the returned digest has exactly the length its algorithm demands (16, 20, 32 or 64 bytes).", "quantifier": "every string and every optAlgo", "why_tests_cant": "malformed inputs are unbounded", "anchors": ["pkg/nixhash/parse.go: ParseAny"]}
{"id": "C16", "title": "ParseAny honours the algorithm", "statement": "ParseAny never returns a hash whose algorithm differs from optAlgo, or from the prefix in the string; without prefix and without optAlgo it fails; an unknown prefix fails; it never panics when optAlgo is a valid algorithm.", "quantifier": "every string, every valid optAlgo or none", "why_tests_cant": "unbounded strings", "anchors": ["pkg/nixhash/parse.go: ParseAny", "pkg/nixhash/algo.go: ParseAlgorithm"]}
{"id": "C17", "title": "Parsed hashes print back as they were", "statement": "If ParseAny(s) succeeds then String() of the result is s (HashWithEncoding remembers the original representation), for strings in canonical form: lower-case hex, canonical base64.", "quantifier": "every string", "why_tests_cant": "unbounded strings, non-canonical forms", "anchors": ["pkg/nixhash/hash_with_encoding.go: String", "pkg/nixhash/parse.go: ParseAny"]}
{"id": "C18", "title": "CompressHash folds by XOR", "statement": "CompressHash(input, n) has length n and its byte i is the XOR of all input bytes at positions congruent to i modulo n; it is linear for XOR of equal-length inputs. With n = 0 it panics, unless the input is empty.", "quantifier": "every input and every n", "why_tests_cant": "unbounded lengths", "anchors": ["pkg/nixhash/util.go: CompressHash"]}
{"id": "C19", "title": "Store paths round-trip", "statement": "For every StorePath with a 20 byte digest and a valid non-empty name, FromString(sp.String()) and FromAbsolutePath(sp.Absolute()) return sp, and Validate(sp.Absolute()) succeeds.", "quantifier": "every digest and name", "why_tests_cant": "unbounded names", "anchors": ["pkg/storepath/storepath.go: String, Absolute, FromString, FromAbsolutePath, Validate"]}
{"id": "C20", "title": "Accepted store paths are well formed", "statement": "Validate accepts exactly the strings of the form /nix/store/<32 nixbase32 chars>-<name> with name a non-empty string over [a-zA-Z0-9+-._?=]; FromAbsolutePath accepts nothing else.", "quantifier": "every string", "why_tests_cant": "adversarial strings are unbounded", "anchors": ["pkg/storepath/storepath.go: Validate, FromString, FromAbsolutePath, PathRe, NameRe"]}
{"id": "C21", "title": "Store path parsing never panics and prints back", "statement": "FromString, FromAbsolutePath and Validate never panic (no out-of-range slicing) on any input; whenever FromString(s) succeeds with a '-' after the hash, String() of the result is s and the digest has 20 bytes.", "quantifier": "every string", "why_tests_cant": "unbounded inputs", "anchors": ["pkg/storepath/storepath.go: FromString, FromAbsolutePath, Validate"]}
{"id": "C22", "title": "Reference scan does not depend on write chunking", "statement": "Feeding data to the ReferenceScanner in any sequence of Write calls gives the same References() as one Write of the concatenation; Write always consumes its whole argument.", "quantifier": "every candidate set, every data, every chunking", "why_tests_cant": "chunkings are unbounded schedules", "anchors": ["pkg/storepath/references/refs.go: Write, References"]}
{"id": "C23", "title": "Reported references are real", "statement": "Every path in References() is one of the candidates and its 32 character hash part occurs in the data written so far; the list is sorted and lists no hash twice; more data never removes a reference.", "quantifier": "every candidate list and every history of writes", "why_tests_cant": "unbounded histories", "anchors": ["pkg/storepath/references/refs.go: NewReferenceScanner, Write, References"]}
{"id": "C24", "title": "No reference is missed", "statement": "If the hash part of a candidate occurs anywhere in the written data, References() reports a candidate with that hash.", "quantifier": "every candidate list and data", "why_tests_cant": "positions and surroundings are unbounded", "anchors": ["pkg/storepath/references/refs.go: Write"]}
{"id": "C25", "title": "Path order is the component order", "statement": "PathIsLexicographicallyOrdered(a, b) holds exactly when a precedes or equals b in the component-wise order (split at '/', compare components as byte strings).", "quantifier": "all pairs of paths", "why_tests_cant": "unbounded pairs", "anchors": ["pkg/nar/util.go: PathIsLexicographicallyOrdered"]}
{"id": "C26", "title": "Header validation", "statement": "Header.Validate accepts exactly the headers whose path starts with '/' and has no NUL, whose LinkTarget is set iff they are symlinks (for the three known types) and whose Size/Executable are zero unless regular; FileInfo agrees with the header (type, size, executable bits, IsDir consistent with Mode).", "quantifier": "every header", "why_tests_cant": "all combinations of fields", "anchors": ["pkg/nar/header.go: Validate, FileInfo", "pkg/nar/header_mode.go: Mode"]}
{"id": "C27", "title": "NAR Writer emits the canonical archive", "statement": "Writing the headers of any file tree in canonical order, each regular file's content in any number of Write calls, and closing, succeeds at each step and emits exactly the canonical NAR serialisation of that tree.", "quantifier": "every finite tree with valid, strictly sorted names, every chunking of every content", "why_tests_cant": "unbounded tree shapes, depths, contents", "anchors": ["pkg/nar/writer.go: NewWriter, WriteHeader, Write, Close, emitNode"]}
{"id": "C28", "title": "NAR Reader yields exactly the tree", "statement": "Reading the canonical NAR of any tree yields, through Next, exactly one header per node in depth-first order with the right path, type, size, executable flag and link target, then io.EOF; Read calls between Next calls return consecutive pieces of the current file's content, and any amount of it (or none) may be read without changing the following headers, under every fragmentation of the input.", "quantifier": "every tree, every read schedule, every fragmentation", "why_tests_cant": "unbounded trees and schedules", "anchors": ["pkg/nar/reader.go: NewReader, Next, Read, parseNode"]}
{"id": "C29", "title": "NAR writer/reader round-trip", "statement": "What the Writer emits for a tree, the Reader reads back as the same headers and contents.", "quantifier": "every tree in the domain", "why_tests_cant": "unbounded trees", "anchors": ["pkg/nar/writer.go", "pkg/nar/reader.go"]}
{"id": "C30", "title": "io.EOF means the archive was complete", "statement": "Next returns io.EOF only after the complete archive, up to the closing parenthesis of the root node, was read; a truncated archive gives another error.", "quantifier": "every archive and every truncation point", "why_tests_cant": "every byte offset of every archive", "anchors": ["pkg/nar/reader.go: Next, parseNode, expectString"]}
{"id": "C31", "title": "Reader errors are sticky", "statement": "Once Next returned an error (including io.EOF), every later Next returns the same error and no header, and consumes nothing more from the stream.", "quantifier": "every stream and every later sequence of Next/Read calls", "why_tests_cant": "unbounded histories", "anchors": ["pkg/nar/reader.go: Next"]}
{"id": "C32", "title": "Reader headers form a tree in canonical order", "statement": "For every input, valid or not: the first header has path \"/\"; every later header's path is a valid name (no '/', no NUL) joined to the path of a directory header yielded before; consecutive headers are never in the wrong order; no path is yielded twice.", "quantifier": "every byte stream", "why_tests_cant": "adversarial archives are unbounded", "anchors": ["pkg/nar/reader.go: Next, parseNode", "pkg/nar/util.go"]}
{"id": "C33", "title": "The Reader always terminates", "statement": "On every finite stream each Next call returns, the number of headers is bounded by the number of bytes, and Next eventually returns an error or io.EOF.", "quantifier": "every finite stream and fragmentation", "why_tests_cant": "termination cannot be tested", "anchors": ["pkg/nar/reader.go: parseNode"]}
{"id": "C34", "title": "Reader Close releases the parser", "statement": "Reader.Close, at any point of the protocol, lets the parser goroutine terminate, and calling it again does not panic.", "quantifier": "every history of Next/Read/Close calls", "why_tests_cant": "goroutine leaks and schedules", "anchors": ["pkg/nar/reader.go: Close, NewReader"]}
{"id": "C35", "title": "Writer accepts only complete files", "statement": "If the Writer reports success for WriteHeader or Close, every preceding regular file received exactly Size bytes; writing more is rejected at once without output; writes to directories and symlinks are rejected.", "quantifier": "every history of WriteHeader/Write/Close", "why_tests_cant": "unbounded histories", "anchors": ["pkg/nar/writer.go", "pkg/wire/bytes_writer.go"]}
{"id": "C36", "title": "A successfully closed archive is valid", "statement": "If every Writer call including Close reports success, the output is the canonical NAR of some tree whose names are valid and strictly sorted.", "quantifier": "every sequence of headers and writes", "why_tests_cant": "adversarial header sequences are unbounded", "anchors": ["pkg/nar/writer.go: emitNode"]}
{"id": "C37", "title": "Writer failures are reported", "statement": "If the underlying writer fails at any point, or a WriteHeader fails, the archive is not reported as complete: Close does not return nil, and no later call blocks forever.", "quantifier": "every failure point and every history", "why_tests_cant": "crash points in an unbounded history", "anchors": ["pkg/nar/writer.go: WriteHeader, Close, NewWriter"]}
{"id": "C38", "title": "DumpPath serialises the tree", "statement": "DumpPath of a file system tree of regular files, symlinks and directories emits exactly the canonical NAR of that tree (executable iff the owner execute bit is set), and DumpPathFilter emits the NAR of the tree with the rejected nodes (and everything under them) removed.", "quantifier": "every tree, every filter function", "why_tests_cant": "unbounded trees and filters", "anchors": ["pkg/nar/dump.go: DumpPath, DumpPathFilter, dumpPath"]}
{"id": "C39", "title": "DumpPath success means a complete dump", "statement": "If DumpPath returns nil, every file contributed exactly as many bytes as its stat size and the complete archive was handed to the writer; a file that grew or shrank, an unknown file type or a failing writer gives an error.", "quantifier": "every tree, every size/content mismatch, every writer failure point", "why_tests_cant": "races and crash points", "anchors": ["pkg/nar/dump.go"]}
{"id": "C40", "title": "NAR listings are validated", "statement": "ParseLS accepts only listings with version 1 in which every entry name is free of '/' and NUL and every node's fields fit its type.", "quantifier": "every listing tree", "why_tests_cant": "unbounded nesting", "anchors": ["pkg/nar/ls/list.go: ParseLS, validateNode"]}
{"id": "C41", "title": "narinfo Parse inverts String", "statement": "For every well-formed NarInfo, Parse(n.String()) returns n.", "quantifier": "every NarInfo whose fields meet the format's constraints", "why_tests_cant": "unbounded fields, lists", "anchors": ["pkg/narinfo/types.go: String", "pkg/narinfo/parser.go: Parse"]}
{"id": "C42", "title": "narinfo keys and defaults", "statement": "Parse fails on a line without exactly one \": \" separator and on unknown keys; the last of several scalar lines wins, References and Sig accumulate in order; a Deriver line saying unknown-deriver is ignored; a missing compression means bzip2; an over-long line is an error.", "quantifier": "every input text", "why_tests_cant": "unbounded inputs", "anchors": ["pkg/narinfo/parser.go: Parse, splitOnce"]}
{"id": "C43", "title": "Fingerprint is unambiguous", "statement": "Two NarInfos with store paths free of ';', references free of ',' and ';' and well-formed hashes have equal fingerprints only if store path, NAR hash, NAR size and references all agree.", "quantifier": "all pairs of NarInfos", "why_tests_cant": "injectivity over unbounded inputs", "anchors": ["pkg/narinfo/fingerprint.go: Fingerprint"]}
{"id": "C44", "title": "Check enforces consistency", "statement": "If Check succeeds, the store path, all references and the deriver are syntactically valid, and for compression \"none\" a non-zero FileSize equals NarSize and, if both hashes are present, they are equal; Check never panics.", "quantifier": "every NarInfo", "why_tests_cant": "unbounded fields", "anchors": ["pkg/narinfo/check.go: Check"]}
{"id": "C45", "title": "Signatures and keys round-trip", "statement": "ParseSignature, ParsePublicKey and LoadSecretKey invert String() for every name without ':' (non-empty) and data of the right size, and accept only non-empty names and data of exactly the right size.", "quantifier": "every name and every 64/32/64 byte data", "why_tests_cant": "unbounded names, all data", "anchors": ["pkg/narinfo/signature/util.go: encode, decode", "pkg/narinfo/signature/signature.go", "pkg/narinfo/signature/public_key.go", "pkg/narinfo/signature/secret_key.go"]}
{"id": "C46", "title": "VerifyFirst is sound", "statement": "VerifyFirst returns true only if some given signature verifies the fingerprint under a given public key with the same name.", "quantifier": "every fingerprint, every list of signatures and keys", "why_tests_cant": "unbounded lists", "anchors": ["pkg/narinfo/signature/signature.go: VerifyFirst", "pkg/narinfo/signature/public_key.go: Verify"]}
{"id": "C47", "title": "VerifyFirst is complete", "statement": "VerifyFirst returns true whenever some given signature verifies under a given public key of the same name.", "quantifier": "every fingerprint, every list of signatures and keys", "why_tests_cant": "unbounded lists and orders", "anchors": ["pkg/narinfo/signature/signature.go: VerifyFirst"]}
{"id": "C48", "title": "Signing verifies", "statement": "A signature made by a SecretKey over a fingerprint verifies under its ToPublicKey (also after printing and re-parsing both), provided ed25519 itself is correct.", "quantifier": "every key, fingerprint", "why_tests_cant": "all keys and messages", "anchors": ["pkg/narinfo/signature/secret_key.go: Sign, ToPublicKey", "pkg/narinfo/signature/public_key.go: Verify"]}
{"id": "C49", "title": "ATerm round-trip", "statement": "For every derivation, ReadDerivation(WriteDerivation(d)) returns d.", "quantifier": "every valid derivation", "why_tests_cant": "unbounded maps, lists and strings", "anchors": ["pkg/derivation/encode.go: WriteDerivation", "pkg/derivation/parser.go: ReadDerivation, parseDerivation, arrayEach"]}
{"id": "C50", "title": "Re-encoding a parsed derivation is lossless", "statement": "If ReadDerivation accepts bytes in canonical ATerm form then WriteDerivation of the result gives back exactly those bytes.", "quantifier": "every accepted canonical input", "why_tests_cant": "unbounded inputs", "anchors": ["pkg/derivation/parser.go", "pkg/derivation/encode.go"]}
{"id": "C51", "title": "Env values survive escaping", "statement": "Unescaping an escaped string gives the string back, for every content (quotes, backslashes, control characters, arbitrary bytes), and the escaped form contains no bare quote.", "quantifier": "every byte string", "why_tests_cant": "unbounded strings", "anchors": ["pkg/derivation/encode.go: escapeString", "pkg/derivation/parser.go: unquote"]}
{"id": "C52", "title": "Encoding does not depend on map order", "statement": "WriteDerivation, DrvPath, CalculateOutputPaths and CalculateDrvReplacement give the same result for every iteration order of the derivation's maps.", "quantifier": "all permutations of all map contents", "why_tests_cant": "Go randomises map order per run", "anchors": ["pkg/derivation/encode.go: writeDerivation", "pkg/derivation/drv_path.go: DrvPath", "pkg/derivation/hashes.go"]}
{"id": "C53", "title": "Validate is a function of the derivation", "statement": "Validate gives the same verdict on every run for the same derivation, and accepts only derivations with at least one output, non-empty output names, valid input paths, sorted inputs, platform, builder and a usable name.", "quantifier": "every derivation and every map iteration order", "why_tests_cant": "map order is random per run", "anchors": ["pkg/derivation/derivation.go: Validate, Name"]}
{"id": "C54", "title": "DrvPath is total on validated derivations", "statement": "For every derivation accepted by Validate, DrvPath and CalculateOutputPaths do not panic.", "quantifier": "every accepted derivation", "why_tests_cant": "unbounded inputs", "anchors": ["pkg/derivation/drv_path.go: DrvPath", "pkg/derivation/hashes.go: CalculateOutputPaths", "pkg/derivation/derivation.go: Validate, Name"]}
{"id": "C55", "title": "DrvPath computes the Nix store path", "statement": "DrvPath is /nix/store/<nixbase32 of the 20 byte fold of sha256(\"text:\" refs \":sha256:\" hex(sha256(aterm)) \":/nix/store:\" name \".drv\")>-<name>.drv with the references sorted; for a name with valid characters the result is a valid store path.", "quantifier": "every derivation, every hash function", "why_tests_cant": "unbounded inputs", "anchors": ["pkg/derivation/drv_path.go: DrvPath"]}
{"id": "C56", "title": "Fixed-output paths depend only on name and hash", "statement": "The output path of a fixed-output derivation depends only on the derivation name, hash algorithm and hash, not on builder, arguments, environment (other than the name), platform or inputs.", "quantifier": "all pairs of fixed-output derivations", "why_tests_cant": "relational property over unbounded inputs", "anchors": ["pkg/derivation/hashes.go: CalculateOutputPaths"]}
{"id": "C57", "title": "Output paths do not depend on the paths already filled in", "statement": "CalculateOutputPaths ignores the current output paths and the environment variables named like outputs; filling in the calculated paths and recalculating gives the same paths.", "quantifier": "every derivation with non-fixed outputs", "why_tests_cant": "relational property", "anchors": ["pkg/derivation/hashes.go: getMaskedATermHash, CalculateOutputPaths", "pkg/derivation/encode.go: writeDerivation"]}
{"id": "C58", "title": "Input replacement is faithful", "statement": "When replacements are given, the hashed term is that of the derivation with every input derivation path replaced; a missing replacement is an error; inputs whose replacements coincide keep the union of their outputs.", "quantifier": "every derivation and replacement map", "why_tests_cant": "unbounded maps, random order", "anchors": ["pkg/derivation/encode.go: writeDerivation"]}
{"id": "C59", "title": "The derivation parser rejects unsorted maps and never panics", "statement": "ReadDerivation never panics on any input, and every accepted derivation has its outputs, input derivations and environment listed in strictly increasing key order, so no entry was silently overwritten.", "quantifier": "every byte string", "why_tests_cant": "adversarial inputs", "anchors": ["pkg/derivation/parser.go: parseDerivation, arrayEach, unquoteSlice"]}
{"id": "C60", "title": "Malformed ATerms are rejected", "statement": "ReadDerivation accepts only the Derive(...) grammar: seven fields, properly closed strings and brackets, nothing dropped or ignored.", "quantifier": "every byte string", "why_tests_cant": "adversarial inputs", "anchors": ["pkg/derivation/parser.go: arrayEach, parseDerivation"]}
{"id": "C61", "title": "MapStore behaves like a map keyed by derivation path", "statement": "After any history of Put calls: Put of a valid derivation whose inputs are present and whose output paths are right returns its DrvPath and makes Get return it and Has true; other paths are unaffected; a failed Put changes nothing; Has agrees with Get.", "quantifier": "every history of Put/Get/Has", "why_tests_cant": "unbounded histories", "anchors": ["pkg/derivation/store/map.go", "pkg/derivation/store/util.go"]}
{"id": "C62", "title": "Stored derivation graphs are closed and consistent", "statement": "In every reachable store every stored derivation passed validation, is stored under its DrvPath, has all its input derivations in the store, a replacement string, and output paths equal to the calculated ones.", "quantifier": "every history of Put calls", "why_tests_cant": "invariant over unbounded histories", "anchors": ["pkg/derivation/store/map.go: Put", "pkg/derivation/store/util.go: validateDerivationInStore, checkOutputPaths"]}
{"id": "C63", "title": "BadgerStore and MapStore agree", "statement": "The BadgerStore accepts the same Puts, returns the same paths, and its Get returns derivations equal to those put, for every history.", "quantifier": "every history of Put/Get/Has", "why_tests_cant": "unbounded histories, map order", "anchors": ["pkg/derivation/store/badger.go: Put, Get, Has"]}
{"id": "C64", "title": "Badger entries are written together", "statement": "In every reachable state, including after a crash between transactions, a derivation entry is present iff its replacement entry is; a failed Put leaves no trace.", "quantifier": "every history and crash point", "why_tests_cant": "crash points", "anchors": ["pkg/derivation/store/badger.go: Put"]}
{"id": "C65", "title": "File and HTTP stores map paths safely", "statement": "FSStore resolves a derivation path to a direct child of its storage directory; Has/Get of FSStore and HTTPStore report presence exactly as the file type / status code says; 404 means absent, 2xx present, anything else is an error.", "quantifier": "every derivation path, every status code, every file kind", "why_tests_cant": "unbounded paths", "anchors": ["pkg/derivation/store/filesystem.go: getFilepath, Get, Has", "pkg/derivation/store/http.go: getURL, Get, Has"]}
{"id": "C66", "title": "gonix nar cat prints the file", "statement": "For every canonical NAR and path, `nar cat` writes exactly the content of the regular file at that path, fails for directories and symlinks and for absent paths; whatever the input file, success means that the whole file was printed.", "quantifier": "every tree and path", "why_tests_cant": "unbounded trees", "anchors": ["cmd/gonix/nar/cat.go: Run"]}
{"id": "C67", "title": "gonix nar ls lists the subtree", "statement": "For every canonical NAR and path, `nar ls -R` prints one line for the node at that path and each node below it, in order, and nothing else.", "quantifier": "every tree and path", "why_tests_cant": "unbounded trees", "anchors": ["cmd/gonix/nar/ls.go: Run, headerLineString"]}
{"id": "C68", "title": "A parsed narinfo can be printed", "statement": "For every text Parse accepts, String and Fingerprint of the result return normally.", "quantifier": "every input text", "why_tests_cant": "unbounded inputs", "anchors": ["pkg/narinfo/parser.go: Parse", "pkg/narinfo/types.go: String", "pkg/narinfo/fingerprint.go: Fingerprint"]}
{"id": "C69", "title": "WriteDerivation reports writer errors", "statement": "WriteDerivation to a writer that fails returns the writer's error and the writer has received a prefix of the ATerm; it returns nil only when the whole ATerm was written.", "quantifier": "every derivation and every failing or succeeding writer", "why_tests_cant": "The writer may fail at any of the unboundedly many Write calls, after accepting any number of bytes.", "anchors": ["pkg/derivation/encode.go: WriteDerivation, writeDerivation, writeArrayElems"]}
{"id": "C70", "title": "CalculateOutputPaths computes Nix's output paths", "statement": "Every output gets the store path whose digest is the 20 byte fold of the hash of the fingerprint Nix uses: output:<name>:sha256:<hash of the masked ATerm with inputs replaced>:/nix/store:<path name>, or the source:/fixed:out: fingerprint for fixed outputs; it is a valid store path when the resulting name has valid characters.", "quantifier": "every derivation, replacement map without collisions and hash function", "why_tests_cant": "Holds for arbitrary names, maps and hash functions, not for the fixtures only.", "anchors": ["pkg/derivation/hashes.go: CalculateOutputPaths, getMaskedATermHash, hashStrings"]}
{"id": "C71", "title": "NewFromURI picks the documented store", "statement": "NewFromURI gives a file store for no scheme and file:// (at the URI's path, or /nix/store if empty), an HTTP store for http(s)://, a badger store at the given path for badger://, and an error for any other scheme.", "quantifier": "every parsed URI", "why_tests_cant": "unbounded schemes and paths", "anchors": ["pkg/derivation/store/uri.go: NewFromURI", "pkg/derivation/store/filesystem.go: NewFSStore"]}
{"id": "C72", "title": "gonix drv show --format aterm prints the file", "statement": "For a derivation file in canonical form, `drv show --format=aterm` on a file or HTTP store prints exactly the file's bytes; a writer error is reported.", "quantifier": "every canonical text, path and store", "why_tests_cant": "unbounded texts", "anchors": ["cmd/gonix/drv/cmd.go: ShowCmd.Run", "pkg/derivation/store/filesystem.go: Get"]}
{"id": "C73", "title": "nar.Reader's results do not depend on the schedule of its two goroutines", "statement": "For every archive, every sequence of Next, Read and Close calls by one caller, and every interleaving of the caller with the parser goroutine: the calls return the same results (those of the sequential reading of the code), no interleaving deadlocks while calls are left, none runs for ever, the parser never touches the archive or the content reader while the caller is outside of the package, and the goroutine has ended once Next returned io.EOF or another parser error or Close was called.", "quantifier": "every byte stream in every fragmentation, every finite history of calls, every interleaving of the two goroutines at their channel operations", "why_tests_cant": "a test runs one schedule chosen by the Go scheduler; the claim is about all of them, and a leak or race only shows under particular ones", "anchors": ["pkg/nar/reader.go: NewReader, parseNode, Reader.Next, Reader.Read, Reader.Close"]}
{"id": "C74", "title": "nar.Writer's results and output do not depend on the schedule of its two goroutines", "statement": "For every sequence of WriteHeader, Write and Close calls by one caller, every output that may fail at any write, and every interleaving of the caller with the emitter goroutine: each call that returns, returns the same result and the same bytes have been written; no interleaving deadlocks while calls are left; none runs for ever; the emitter never writes while the caller is outside of the package; once Close returned the goroutine has ended.", "quantifier": "every finite history of calls with arbitrary headers and contents, every plan of write failures, every interleaving of the two goroutines at their channel operations", "why_tests_cant": "a test runs one schedule chosen by the Go scheduler; the claim is about all of them and all histories", "anchors": ["pkg/nar/writer.go: NewWriter, emitNode, Writer.WriteHeader, Writer.Write, Writer.Close"]}
{"id": "C75", "title": "The fetcher cache returns the last value stored", "statement": "After any sequence of successful and failed UpsertCache calls, QueryCache(domain, key) returns exactly the value and timestamp of the last successful UpsertCache of that domain and key, and no row if there was none.", "quantifier": "All histories of upserts (each may fail), all domains, keys, values, timestamps.", "why_tests_cant": "Must hold after every sequence of statements, including ones that fail half way through a history; a test runs one sequence.", "anchors": ["pkg/sqlite/fetcher_cache_v2/query.sql.go: UpsertCache, QueryCache", "pkg/sqlite/fetcher_cache_v2/schema.sql"]}
{"id": "C76", "title": "The eval cache returns the last attribute stored", "statement": "QueryAttribute(parent, name) returns type, value and context of the last successful InsertAttribute or InsertAttributeWithContext for that parent and name (no context for the former), sql.ErrNoRows if there was none; QueryAttributes(parent) lists every stored name once.", "quantifier": "All histories of inserts (each may fail), all parents and names, NULL included.", "why_tests_cant": "Must hold after every sequence of statements, including ones that fail half way through a history; a test runs one sequence.", "anchors": ["pkg/sqlite/eval_cache_v5/query.sql.go: InsertAttribute, InsertAttributeWithContext, QueryAttribute, QueryAttributes", "pkg/sqlite/eval_cache_v5/schema.sql"]}
{"id": "C77", "title": "The binary cache database answers with the last, unpurged, fresh row", "statement": "QueryNar and QueryRealisation return the row stored last for a cache and key, exactly if its timestamp is above the bound for its kind (present or missing) and no PurgeNars removed it since; QueryCache does so for a URL; InsertCache returns the same id for the same URL and different ids for different URLs; QueryLastPurge returns the last UpdateLastPurge; a purge with bounds not above the query's is invisible; with foreign keys enforced, rows for unknown caches are rejected.", "quantifier": "All histories of the seven statements (each may fail), both foreign-key settings, all keys, timestamps and bounds.", "why_tests_cant": "Must hold after every sequence of statements, including ones that fail half way through a history; a test runs one sequence.", "anchors": ["pkg/sqlite/binary_cache_v6/query.sql.go", "pkg/sqlite/binary_cache_v6/schema.sql"]}
{"id": "C78", "title": "Path information and ids in the Nix database", "statement": "QueryPathInfo returns what the last registration and the updates since say, and sql.ErrNoRows if the path was never registered or was invalidated since; RegisterValidPath fails exactly for a valid path and then changes nothing; an id stands for one registration of one path and is never reused.", "quantifier": "All histories of RegisterValidPath, UpdatePathInfo, AddReference, AddDerivationOutput, InvalidatePath (each may fail), both foreign-key settings.", "why_tests_cant": "Must hold after every sequence of statements, including ones that fail half way through a history; a test runs one sequence.", "anchors": ["pkg/sqlite/nix_v10/query.sql.go: RegisterValidPath, UpdatePathInfo, InvalidatePath, QueryPathInfo", "pkg/sqlite/nix_v10/schema.sql"]}
{"id": "C79", "title": "References in the Nix database are symmetric and closed", "statement": "For valid paths p and q, q is among QueryReferences(p) and p among QueryReferrers(q) exactly if AddReference was called with their ids; each is listed once; the references of a valid path are valid; InvalidatePath of a path another valid path refers to fails and changes nothing.", "quantifier": "All histories of statements (each may fail), both foreign-key settings, all pairs of valid paths.", "why_tests_cant": "Must hold after every sequence of statements, including ones that fail half way through a history; a test runs one sequence.", "anchors": ["pkg/sqlite/nix_v10/query.sql.go: AddReference, QueryReferences, QueryReferrers, InvalidatePath", "pkg/sqlite/nix_v10/schema.sql: Refs, DeleteSelfRefs", "pkg/sqlite/sqlite.go: NixV10"]}
{"id": "C80", "title": "Derivation outputs and valid derivers", "statement": "QueryDerivationOutputs(id) of a valid derivation lists each output once with the path given last; QueryValidDerivers(path) lists exactly the valid derivations one of whose current outputs is the path; an invalidated derivation has no outputs.", "quantifier": "All histories of statements (each may fail), both foreign-key settings.", "why_tests_cant": "Must hold after every sequence of statements, including ones that fail half way through a history; a test runs one sequence.", "anchors": ["pkg/sqlite/nix_v10/query.sql.go: AddDerivationOutput, QueryDerivationOutputs, QueryValidDerivers", "pkg/sqlite/nix_v10/schema.sql: DerivationOutputs"]}
{"id": "C81", "title": "A path is found by its hash part", "statement": "QueryPathFromHashPart(storeDir/hash) returns a path that starts with the argument if a valid path does, and sql.ErrNoRows only if every valid path sorts before the argument.", "quantifier": "All histories of statements, all arguments, every row order SQL allows.", "why_tests_cant": "The statement has no ORDER BY; a test sees the order one version of SQLite happens to choose.", "anchors": ["pkg/sqlite/nix_v10/query.sql.go: QueryPathFromHashPart"]}
{"id": "C82", "title": "An archive stands for one tree", "statement": "No two different trees have the same NAR bytes, and no archive is a prefix of another: if the bytes of one archive followed by anything equal the bytes of another followed by anything, the trees are equal. So two successful DumpPath calls (with any filter) that wrote the same bytes dumped the same tree.", "quantifier": "All trees (names, contents, targets shorter than 2^63 bytes), all directory contents on disk, all filters.", "why_tests_cant": "Injectivity ranges over pairs of trees; a test compares one pair.", "anchors": ["pkg/nar/dump.go: DumpPathFilter", "pkg/nar/writer.go: Writer"]}
{"id": "C83", "title": "nar dump, then nar cat and nar ls", "statement": "Dumping a directory and running nar cat on the archive prints the content of every regular file that was on disk, and nar ls -R / prints exactly its tree.", "quantifier": "All directory trees that do not change during the dump, all cuts of the archive into reads, all buffer sizes.", "why_tests_cant": "Ranges over all trees and read schedules.", "anchors": ["pkg/nar/dump.go: DumpPath", "cmd/gonix/nar/cat.go", "cmd/gonix/nar/ls.go"]}
{"id": "C84", "title": "Copying an archive entry by entry", "statement": "A client that reads every entry to io.EOF and passes each header and each chunk read to a Writer gets, after Close, exactly the bytes of the archive it read.", "quantifier": "All trees, all read sizes and cuts, all numbers of reads after io.EOF.", "why_tests_cant": "Ranges over all trees and schedules of reads.", "anchors": ["pkg/nar/reader.go: Reader", "pkg/nar/writer.go: Writer"]}
{"id": "C85", "title": "Sign, publish, fetch, verify", "statement": "Add to a narinfo the signature of its Fingerprint under a fresh key, print it, serve it cut up in any way and Parse it: VerifyFirst against any list of trusted keys that contains the key (and, before it, only keys no signature names) returns true for the fetched narinfo.", "quantifier": "All narinfos, seeds, key names, lists of other keys and signatures, cuts of the text; any correct ed25519.", "why_tests_cant": "Ranges over all narinfos, keys and network schedules.", "anchors": ["pkg/narinfo/types.go: String; pkg/narinfo/fingerprint.go: Fingerprint", "pkg/narinfo/parser.go: Parse", "pkg/narinfo/signature: VerifyFirst"]}
{"id": "C86", "title": "What verifies was signed", "statement": "If the owners of the trusted keys signed only the fingerprints of certain narinfos (and ed25519 is unforgeable for these keys), then any narinfo that VerifyFirst accepts has the same store path, NAR hash, NAR size and references as one of those that were signed.", "quantifier": "All narinfos an attacker can serve, all sets of signed narinfos, all key lists.", "why_tests_cant": "A security property: it ranges over all attacker-supplied narinfos.", "anchors": ["pkg/narinfo/fingerprint.go: Fingerprint", "pkg/narinfo/signature: VerifyFirst", "pkg/narinfo/check.go: Check"]}
{"id": "C87", "title": "A written derivation is what the stores return", "statement": "The text WriteDerivation produces for a derivation, placed at the file FSStore (or served at the URL HTTPStore) uses for its derivation path, makes Get of that path return the same derivation, whose DrvPath is the path asked for.", "quantifier": "All valid derivations, directories, base URLs, status codes 200-299, cuts of the file or body into reads.", "why_tests_cant": "Ranges over all derivations and read schedules.", "anchors": ["pkg/derivation/encode.go: WriteDerivation", "pkg/derivation/store/filesystem.go: Get", "pkg/derivation/store/http.go: Get", "pkg/derivation/drv_path.go: DrvPath"]}
{"id": "C88", "title": "drv show prints the derivation as JSON", "statement": "`drv show --format json` and `--format json-pretty` print one JSON text (RFC 8259, UTF-8) and a newline. Its value is the object `nix show-derivation` gives for the derivation: outputs, inputSrcs, inputDrvs, system, builder, args, env, with maps as objects in key order and no hash fields for outputs without them; strings are exact if they are UTF-8, and otherwise every stray byte stands as U+FFFD. A slice or map of the derivation is printed as null exactly if it is nil, and nothing else is. If writing fails, the command fails and what was printed is a prefix.", "quantifier": "All derivations (any bytes in any string), both formats, all writers with any schedule of failures.", "why_tests_cant": "Ranges over all derivations and all strings, including ones that need escapes or are not Unicode.", "anchors": ["cmd/gonix/drv/cmd.go: ShowCmd.Run", "pkg/derivation/derivation.go: Derivation", "pkg/derivation/output.go: Output"]}
{"id": "C89", "title": "The two JSON formats agree", "statement": "json and json-pretty print the same value, write strings the same way, and differ only in the spaces and line breaks; the output does not depend on the iteration order of the derivation's maps.", "quantifier": "All derivations, all map iteration orders.", "why_tests_cant": "Map iteration order is random; the layout must be right for every nesting of arrays and objects.", "anchors": ["cmd/gonix/drv/cmd.go: ShowCmd.Run", "pkg/derivation/derivation.go: Derivation", "pkg/derivation/output.go: Output"]}
{"id": "C90", "title": "The JSON determines the derivation", "statement": "Two derivations for which drv show prints JSON of the same value, in whichever format, have the same outputs, inputs, sources, platform, builder, arguments and environment.", "quantifier": "All pairs of derivations, both formats.", "why_tests_cant": "An injectivity property over pairs of derivations.", "anchors": ["cmd/gonix/drv/cmd.go: ShowCmd.Run", "pkg/derivation/derivation.go: Derivation", "pkg/derivation/output.go: Output"]}
{"id": "C91", "title": "The name in structured attributes", "statement": "For a derivation with a variable __json, ReadDerivation takes the derivation's name from the attribute `name` of that JSON object; a text that is not such an object is an error; without __json the name is not set.", "quantifier": "All inputs of ReadDerivation, all JSON texts.", "why_tests_cant": "Ranges over all JSON texts: duplicate keys, escapes in keys, letter case, invalid UTF-8, nesting.", "anchors": ["pkg/derivation/parser.go: parseDerivation"]}
{"id": "C92", "title": "When reading a derivation panics", "statement": "ReadDerivation never panics, whatever the bytes it reads are, including the JSON in __json.", "quantifier": "All byte streams.", "why_tests_cant": "Must hold for every input.", "anchors": ["pkg/derivation/parser.go: parseDerivation, ReadDerivation"]}
{"id": "C93", "title": "ParseLS reads exactly the listings", "statement": "ParseLS succeeds exactly if the stream starts with (white space and) a JSON object that is a listing: members version (1) and root, nodes with the known members of the right types and valid names; the result is the value of that text, where of repeated members the last counts (entries and root are merged). What follows the object is ignored.", "quantifier": "All byte streams, all cuts into reads, all JSON texts up to 10000 levels deep.", "why_tests_cant": "Ranges over all JSON texts and all ways of writing the same listing.", "anchors": ["pkg/nar/ls/list.go: ParseLS, Root, Node"]}
{"id": "C94", "title": "When ParseLS panics", "statement": "ParseLS never panics, whatever the bytes it reads are.", "quantifier": "All byte streams.", "why_tests_cant": "Must hold for every input.", "anchors": ["pkg/nar/ls/list.go: ParseLS, validateNode"]}
{"id": "C95", "title": "CalculateDrvReplacement computes Nix's hash modulo", "statement": "For a derivation whose only output is a fixed \"out\", CalculateDrvReplacement is the hex SHA-256 of fixed:out:<algorithm>:<hash>:<path>, whatever the inputs; for any other derivation it is the hex SHA-256 of the ATerm with the input derivations replaced.", "quantifier": "every derivation, replacement map without collisions and hash function", "why_tests_cant": "unbounded names, maps and hash values; not only the fixtures", "anchors": ["pkg/derivation/hashes.go: CalculateDrvReplacement, hashStrings"]}
{"id": "C96", "title": "Concurrent Puts on a BadgerStore are linearisable", "statement": "When Put is called from several goroutines, every call that returns behaves as if it had run alone at one instant between its start and its return: same result, same effect on the database; the database is always what some sequence of the calls leaves, also after crashes, and a call returns after a bounded number of its own steps whatever the others do.", "quantifier": "every set of overlapping Put calls, every interleaving of their database transactions, every failing commit and crash point, for derivations of which no two different ones have the same derivation path", "why_tests_cant": "unbounded interleavings of transactions", "anchors": ["pkg/derivation/store/badger.go: Put, Has", "pkg/derivation/store/util.go: validateDerivationInStore"]}
{"id": "C97", "title": "The wire package's buffer pool is safe for concurrent use", "statement": "When goroutines read and write integers and padding on streams of their own, every call returns what it returns without the others and every stream ends up the same, whatever the interleaving, whichever buffer sync.Pool hands out or drops, and however readers use the rest of the slice as scratch space; no buffer is used by two goroutines at a time; every call ends.", "quantifier": "every number of goroutines, every sequence of calls, all readers and writers, every schedule and every behaviour of the pool", "why_tests_cant": "data races and buffer reuse depend on the schedule", "anchors": ["pkg/wire/write.go: bufPool, WriteUint64", "pkg/wire/read.go: ReadUint64, readPadding"]}
{"id": "C98", "title": "Printing a parsed narinfo and parsing it again", "statement": "Print a narinfo that Parse returned and Parse the text: the result is the same narinfo (but a file hash without a file size, or a size without a hash, is dropped), and printing that gives the same text again.", "quantifier": "Every text Parse accepts that names a nar hash, every way the printed text is cut up.", "why_tests_cant": "Ranges over all accepted texts, including repeated keys, odd spacing and non-canonical hashes and sizes.", "anchors": ["pkg/narinfo/parser.go: Parse", "pkg/narinfo/types.go: String"]}
{"id": "C99", "title": "The exported patterns for store paths", "statement": "PathRe matches a text exactly when it is /nix/store/<32 base32 characters>-<name> with a non-empty name of allowed characters that does not begin with a dot, and its two groups are the hash and the name; everything it matches is accepted by Validate and FromAbsolutePath, with the same hash and name, and prints back. NameRe is not anchored: it matches every text that contains an allowed character other than the dot.", "quantifier": "Every string.", "why_tests_cant": "A regular expression and hand-written checks have to agree on infinitely many strings.", "anchors": ["pkg/storepath/storepath.go: NameRe, PathRe, Validate, FromAbsolutePath"]}
{"id": "C100", "title": "The directory a store URI text opens", "statement": "NewFromURI given the path of a directory, without a scheme or after file://, opens the store in that directory. (True exactly for the texts without #, ?, %, control characters, a colon in the first segment, or a leading // that is not ///; other texts are an error or quietly open another directory, e.g. /srv/100%25 opens /srv/100% and //srv/drvs opens /drvs.) It never panics.", "quantifier": "Every text.", "why_tests_cant": "Path texts go through URL parsing; which of infinitely many texts survive it cannot be sampled.", "anchors": ["pkg/derivation/store/uri.go: NewFromURI", "pkg/derivation/store/filesystem.go: NewFSStore"]}
{"id": "C101", "title": "The URL the HTTP store asks for", "statement": "For every base URL an HTTPStore is made from and every derivation path, the request goes to ${baseURL}/${base derivationPath}: scheme, user, host, query and fragment are those of the base, and the path is the entry with that name in the base's path, also after the URL has been printed and parsed again by net/http. (Not for bases without // and host, where the derivation path is dropped, nor for an IPv6 zone with characters beyond ASCII, where no request can be made; an encoded slash in the base is sent as a slash.)", "quantifier": "Every base URL text and derivation path.", "why_tests_cant": "Escaping, printing and parsing again have to agree on every character of every base URL.", "anchors": ["pkg/derivation/store/http.go: getURL, constructRequest, NewHTTPStore", "pkg/derivation/store/uri.go: NewFromURI"]}
{"id": "C102", "title": "gonix nar dump writes the whole archive or fails", "statement": "When gonix nar dump succeeds, standard output has received the complete archive of the tree, with nothing left in the buffer, whatever the buffer size and however writes to standard output fail; on a working standard output a readable tree is dumped; and whatever happens, standard output has received only a beginning of the archive written by DumpPath. (Not every readable tree is dumped: names that begin with '..' fail, see C38.)", "quantifier": "Every file system tree, buffer size, and pattern of short or failing writes on standard output.", "why_tests_cant": "An error can strike at any write, and the last bytes leave the buffer only in the final Flush.", "anchors": ["cmd/gonix/nar/dump.go: DumpPathCmd.Run", "pkg/nar/dump.go: DumpPath"]}
{"id": "C103", "title": "Scanning a dumped tree for references", "statement": "Writing the archive of a tree to a reference scanner, in whatever pieces DumpPath writes it, reports exactly the candidates that scanning the contents of its files, the targets of its links and the names of its entries one by one reports: the framing of the archive (lengths, tokens, padding) neither hides a reference nor makes one up, and texts next to each other are not joined. In particular everything reported occurs in one of these texts, and a hash at the beginning of a text or behind a character that is not a base32 digit is reported.", "quantifier": "Every set of candidates, every file system tree that DumpPath dumps successfully (texts below 2^56 bytes), every filter, every division of the output into writes.", "why_tests_cant": "A length byte can be the code of a base32 digit, tokens can end without padding, and names, targets and contents are arbitrary bytes.", "anchors": ["pkg/storepath/references/refs.go: NewReferenceScanner, Write, References", "pkg/nar/dump.go: DumpPath, DumpPathFilter"]}
{"id": "C104", "title": "The Writer and the caller's Header structs", "statement": "nar.Writer takes pointers to Header structs. What its calls return and what it writes depends only on each header's content at the moment it was given to WriteHeader: changing or reusing a struct afterwards has no effect.", "quantifier": "Every history of assignments to any number of Header structs, WriteHeader, Write and Close calls, and every behaviour of the underlying writer.", "why_tests_cant": "A test reuses or changes structs in a few ways; whether a change is noticed depends on which entries are still open and on the paths that follow.", "anchors": ["pkg/nar/writer.go: NewWriter, WriteHeader, Write, Close"]}
{"id": "C105", "title": "The stores and the caller's Derivation structs", "statement": "Put takes, and Get returns, pointers to Derivation structs. The answers of Put and Has depend only on each derivation's content at the moment it was given to Put, and Get returns the derivation as it was then, for the MapStore and the BadgerStore: changing a struct afterwards has no effect on the store.", "quantifier": "Every history of assignments to any number of Derivation structs, Put, Get and Has calls.", "why_tests_cant": "Tests build fresh derivations and do not change them later; sharing shows only in histories that do, possibly much later and under another path.", "anchors": ["pkg/derivation/store/map.go: Put, Get, Has", "pkg/derivation/store/badger.go: Put, Get, Has"]}
{"id": "C106", "title": "Dumping a tree that changes meanwhile", "statement": "If DumpPath or DumpPathFilter returns nil, then whatever happens to the file system between any two of its system calls, exactly one complete valid archive has been written: of a tree every node of which the file system showed as such during the dump (the type, exec bit and size Lstat gave, the target Readlink gave, the content read after it, all names ReadDir gave except those the filter rejected). If all is shown completely and consistently with itself, the dump succeeds. A file whose size and content do not agree, or an entry that vanished, is an error and not a wrong archive. On a file system that does not change this is the dump of C38 and C39.", "quantifier": "Every sequence of answers to the system calls, every filter, depth and writer.", "why_tests_cant": "Races between the dump and other processes are not reproducible in a test, and there are infinitely many interleavings.", "anchors": ["pkg/nar/dump.go: DumpPath, DumpPathFilter, dumpPath"]}
{"id": "C107", "title": "Calls return and leave nothing behind", "statement": "DumpPath and DumpPathFilter return nil or an error, whatever the file system answers, however it changes meanwhile, and however the writer fails: they do not panic and do not hang. When DumpPath, or Get or Has of the file and HTTP stores, has returned, every file and response body it opened has been closed and no goroutine of it runs. A dump has at most one file open at a time.", "quantifier": "Every sequence of answers of the file system or server, every filter, writer and number of calls.", "why_tests_cant": "A test sees a result, not what is left open; the failing paths are as many as the system calls made.", "anchors": ["pkg/nar/dump.go: DumpPathFilter, dumpPath", "pkg/nar/writer.go: WriteHeader, Write, Close", "pkg/derivation/store/filesystem.go: Get", "pkg/derivation/store/http.go: Get, Has"]}
{"id": "C108", "title": "Values and archives on one stream", "statement": "wire values and NAR archives may follow each other on one stream in any order, as in Nix's protocols: if the sender's calls (WriteUint64, WriteBool, WriteString, DumpPath) all succeed, exactly their encodings were written one after the other, and a receiver that makes the matching calls (ReadUint64, ReadBool, ReadString, a new nar.Reader read with Next until io.EOF) gets each value and tree, however the stream is fragmented, with the stream left exactly behind the last one: no call takes bytes of its successor.", "quantifier": "Every sequence of values and trees, every fragmentation, every pattern of partial reads of the files.", "why_tests_cant": "Reading too far shows only with the right successor and fragmentation; the sequences are unbounded.", "anchors": ["pkg/wire/read.go", "pkg/wire/write.go", "pkg/nar/reader.go: NewReader, Next, Read", "pkg/nar/dump.go: DumpPathFilter"]}
{"id": "C109", "title": "Recreating an untrusted archive below a directory", "statement": "a caller that recreates the nodes a nar.Reader reports below a directory of its own, at filepath.Join(dir, header.Path), stays inside that directory whatever the stream holds (entries may be called \"..\", \".\" or \"\"); the headers come in the component-wise order of their paths, so a directory's nodes come together; every ancestor of a reported path was reported before as a directory; and nothing is reported below a path that was reported as a symlink or file, so that nothing is written through a link.", "quantifier": "Every byte stream, well-formed or hostile, every fragmentation and end, every history of Next and Read calls, every target directory.", "why_tests_cant": "Hostile streams are unbounded in number, size and nesting; whether an escape exists depends on combinations of names, order checks and open directories.", "anchors": ["pkg/nar/reader.go: parseNode, Next", "pkg/nar/util.go: IsValidNodeName, PathIsLexicographicallyOrdered", "pkg/nar/header.go: Header"]}
{"id": "C110", "title": "What the Reader accepts is the archive of what it reports", "statement": "when a nar.Reader has returned io.EOF from Next, the bytes it consumed are the NAR serialisation of exactly the tree it reported, so that a stream accepted by the Reader and another with the same nodes have the same bytes (and NAR hash), and the Reader stopped right behind the archive.", "quantifier": "Every byte stream, well-formed or not, every fragmentation and terminal error, every session of Next and Read calls with any buffer sizes.", "why_tests_cant": "The accepted streams are infinitely many and of unbounded nesting; a test can only try some malformed streams, not exclude that another one is accepted.", "anchors": ["pkg/nar/reader.go: NewReader, parseNode, Next, expectString", "pkg/wire/read.go: ReadBytesFull, ReadString", "pkg/wire/bytes_reader.go: BytesReader.Close"]}
{"id": "C111", "title": "Constructed hashes are well formed and print", "statement": "NewHash returns a Hash exactly when the algorithm is one of MD5, SHA1, SHA256, SHA512 and the digest has that algorithm's size (an error for another size, a panic for another algorithm), and Algo and Digest give the arguments back; NewHashWithEncoding does the same and remembers the encoding; the Must variants panic where these return an error and otherwise return the same; and every HashWithEncoding built with a known encoding prints a text that ParseAny reads back as the same algorithm, digest and encoding.", "quantifier": "Every algorithm value, every digest of every length, every encoding and flag.", "why_tests_cant": "The digest ranges over all byte strings of all lengths; tests try a few.", "anchors": ["pkg/nixhash/hash.go: NewHash, MustNewHash, Algo, Digest", "pkg/nixhash/hash_with_encoding.go: NewHashWithEncoding, MustNewHashWithEncoding, String", "pkg/nixhash/parse.go: MustParseNixBase32"]}
{"id": "C112", "title": "StorePath.Validate accepts exactly the store paths", "statement": "for every StorePath value, Validate returns nil exactly when the digest has PathHashSize bytes and the name is non-empty and made of the allowed characters, and a value that passes is read back by FromString from String and by FromAbsolutePath from Absolute.", "quantifier": "Every StorePath value: any digest of any length and any name.", "why_tests_cant": "Fields are exported and can hold anything; the check runs on the joined and cleaned text at fixed offsets, so whether a strange field value slips through cannot be settled by examples.", "anchors": ["pkg/storepath/storepath.go: StorePath.Validate, Absolute, Validate"]}
{"id": "C113", "title": "Whatever the Writer accepts, the Reader gives back", "statement": "if NewWriter, every WriteHeader and Write of a history and Close all return without an error, then a Reader on the bytes written reports exactly the headers that were written, in that order, each followed by exactly the bytes accepted for it, then io.EOF, and stops behind the archive.", "quantifier": "Every history of calls with any headers (paths, types, targets, sizes) and any split of the contents into Writes, every sink, every way the bytes reach the Reader and every session of Next and Read calls.", "why_tests_cant": "Histories, trees and contents are unbounded; tests write a few small archives.", "anchors": ["pkg/nar/writer.go: NewWriter, WriteHeader, Write, Close", "pkg/nar/reader.go: NewReader, Next, Read", "pkg/nar/reader.go: tokenLenMax, nameLenMax, pathLenMax"]}
{"id": "C114", "title": "A derivation completed with its calculated output paths is accepted by the stores", "statement": "Take a derivation that would be valid but for its output paths, whose input derivations are in a store: CalculateOutputPaths, given the inputs' replacement strings, returns a path for every output; with those paths filled in (in the outputs and the environment variables of the same names) Put accepts the derivation, returns the same path as DrvPath, Get hands it out again, and CalculateDrvReplacement on the same strings gives the hash modulo inputs that later derivations will need.", "quantifier": "Every store history, every derivation with any inputs, outputs, names and environment, every iteration order of its maps, every hash function.", "why_tests_cant": "Store graphs and derivations are unbounded and Go's map order is random; tests store a handful of finished derivations.", "anchors": ["pkg/derivation/hashes.go: CalculateOutputPaths, CalculateDrvReplacement", "pkg/derivation/store/map.go: Put, Get", "pkg/derivation/store/badger.go: Put, Get", "pkg/derivation/derivation.go: Validate", "pkg/derivation/drv_path.go: DrvPath"]}
{"id": "C115", "title": "Statements through WithTx are one transaction", "statement": "Statements through the Queries value WithTx returns take effect together when the transaction is committed and not at all if it is rolled back, its Commit fails or the process dies; nobody else sees them before; afterwards they are refused with sql.ErrTxDone. The database is always what the stand-alone statements and the committed transactions, in commit order, make of it, each statement having returned what it returns in that order.", "quantifier": "Every interleaving of Begin, statements, queries, Commit and Rollback of any number of goroutines on each of the four databases, every pattern of failing statements and commits, every crash point.", "why_tests_cant": "Interleavings, failures and crash points are unbounded; the tests use no transactions at all.", "anchors": ["pkg/sqlite/nix_v10/db.go: New, WithTx", "pkg/sqlite/binary_cache_v6/db.go: New, WithTx", "pkg/sqlite/eval_cache_v5/db.go: New, WithTx", "pkg/sqlite/fetcher_cache_v2/db.go: New, WithTx", "pkg/sqlite/sqlite.go: NixV10, BinaryCacheV6, EvalCacheV5, FetcherCacheV2"]}
{"id": "C116", "title": "Copying an archive makes it well-formed", "statement": "If all that a Reader reported for a byte stream - valid, damaged or hostile - is written to a Writer and every call succeeds, the output is the canonical archive of a valid tree that has just the reported nodes and contents, and reading the copy reports the same again.", "quantifier": "Every byte stream and the ways it arrives, every session of Next and Read calls with any buffers, every sink.", "why_tests_cant": "Streams, sessions and sinks are unbounded, and most streams are not archives; tests copy a few valid ones.", "anchors": ["pkg/nar/reader.go: NewReader, Next, Read", "pkg/nar/writer.go: NewWriter, WriteHeader, Write, Close, emitNode", "pkg/nar/util.go: PathIsLexicographicallyOrdered"]}
{"id": "C117", "title": "An archive can be read while it is being written", "statement": "As soon as WriteHeader has returned, the bytes in the underlying io.Writer are enough for a Reader to report that header, and as soon as Write has returned, to give out those bytes: on a stream that begins with what has been written so far, the Reader reports all headers written with their contents, without taking a byte of what comes behind. (For archives within what both sides support, see C113.)", "quantifier": "Every history of successful calls with clean paths, no path twice in a row, names of at most 255 bytes other than \")\" and targets of at most 4095; every split of the contents into Writes; every point of the history; every way the bytes arrive; every continuation of the stream.", "why_tests_cant": "Histories, interruption points, fragmentations and continuations are unbounded; tests read finished archives.", "anchors": ["pkg/nar/writer.go: NewWriter, WriteHeader, Write, emitNode", "pkg/nar/reader.go: NewReader, Next, Read, parseNode"]}
{"id": "C118", "title": "Nothing is read ahead", "statement": "What NewReader, Next, Read and Close return depends only on the bytes taken from the underlying io.Reader so far. If, after some calls, a part of the stream has not been taken yet, the same calls on a stream that differs only in that part - other bytes, fewer, none, another error at the end - return the same results and leave the other stream at the same place. In particular no call waits for bytes that its result does not depend on. This holds on any stream, also on damaged ones.", "quantifier": "Every stream of bytes in every fragmentation, well formed or not; every history of Next, Read (into non-empty buffers) and Close; every cut, between two fragments or inside one; every other continuation and final error.", "why_tests_cant": "Streams, histories, fragmentations and continuations are unbounded, and a test that only compares results on complete streams cannot see a read that is too early.", "anchors": ["pkg/nar/reader.go: NewReader, Next, Read, Close, parseNode, expectString", "pkg/wire/read.go: ReadUint64, ReadBytes, ReadBytesFull, readPadding", "pkg/wire/bytes_reader.go: Read, Close"]}
{"id": "C119", "title": "Different derivations and outputs have different store paths", "statement": "Store paths identify what they name. Two outputs of one derivation never have the same path. If DrvPath returns the same path for two derivations, they have the same name and the same contents (outputs, input derivations, sources, platform, builder, arguments, environment), and if CalculateOutputPaths gives an output of one derivation the path of an output of another, the outputs have the same name, the derivations have the same name, and either both outputs are fixed with the same algorithm and hash or the two derivations agree on everything but output paths - unless the hash function maps two particular different texts, the texts of these derivations or the fingerprints of these paths, to the same value.", "quantifier": "Every pair of derivations whose names are made of store path characters, every hash function with 32-byte results, every pair of outputs, every replacement map; with the pair of texts that would have to collide named explicitly.", "why_tests_cant": "Pairs of derivations are unbounded, and a test cannot show that no two of them get the same path.", "anchors": ["pkg/derivation/drv_path.go: DrvPath", "pkg/derivation/hashes.go: CalculateOutputPaths, getMaskedATermHash, hashStrings", "pkg/derivation/encode.go: WriteDerivation, escapeString", "pkg/storepath/storepath.go: Absolute", "pkg/nixhash/util.go: CompressHash"]}
{"id": "C120", "title": "A verified download is the published tree", "statement": "If the owners of the trusted keys signed only narinfos that state the size and the SHA-256 digest of a successful dump of a file tree, then any narinfo text that Parse accepts and VerifyFirst verifies, together with any file that has the size and digest it states, is a faithful download: the narinfo has the store path, hash, size and references of one that was signed, and the file is the archive of the tree that was dumped for it, so that a Reader returns exactly the entries and contents of that tree - unless the file and that archive are two different texts with the same digest. Conversely what is dumped, described, signed and printed this way parses, verifies and reads back.", "quantifier": "All narinfo texts and all files an attacker can serve, all sets of signed narinfos and trees, all key lists, all fragmentations of the transfer and all read sizes.", "why_tests_cant": "It ranges over everything an attacker can serve, and joins five packages that are only tested apart.", "anchors": ["pkg/narinfo/parser.go: Parse", "pkg/narinfo/fingerprint.go: Fingerprint", "pkg/narinfo/signature: VerifyFirst", "pkg/nar/dump.go: DumpPath", "pkg/nar/reader.go: NewReader, Next, Read"]}
{"id": "C121", "title": "A content-addressed path names one file tree", "statement": "When the output \"out\" of a derivation states, under the algorithm r:sha256, the hexadecimal SHA-256 digest of the archive of a successful dump of a file tree, the path that CalculateOutputPaths gives it is a function of the derivation's name and that digest alone, whatever else the derivation says and whatever replacements are passed. Two such paths are equal only if the names are equal and the two trees are the same tree - every name, kind, executable bit, symlink target and content - unless two different archives, or two different fingerprints, have the same digest. And the same tree under the same name always gets the same path, whoever dumps it, from which directory and through which filter.", "quantifier": "All file trees, dump roots and filters, all pairs of derivations that state their digests, all replacement maps, and all hash functions with 32-byte digests.", "why_tests_cant": "It compares every pair of file trees and derivations, and joins the archive writer, the serialisation's injectivity and the path computation.", "anchors": ["pkg/nar/dump.go: DumpPathFilter", "pkg/derivation/hashes.go: CalculateOutputPaths", "pkg/nixhash/util.go: CompressHash", "pkg/storepath/storepath.go: Absolute"]}
{"id": "C122", "title": "A store's derivations have a build order", "statement": "After any history of Puts, everything a MapStore has can be listed so that each derivation comes behind all its input derivations; so no stored derivation depends on itself, directly or through others, and every walk along inputs ends. The same holds for what a BadgerStore's Get returns, after any schedule of overlapping Puts, failing commits and crashes (for derivations whose text reads back). The only way out is that two derivations given to Put have the same derivation path and different inputs, which takes a collision of the hash or a text that can be read in two ways (unescaped quotes).", "quantifier": "All histories, and for the BadgerStore all interleavings of Puts, commit failures and crash points; all hash functions.", "why_tests_cant": "A cycle could only come from a long history of accepted and overwriting Puts, or an interleaving; the absence of cycles is about every history at once.", "anchors": ["pkg/derivation/store/map.go: Put, Get", "pkg/derivation/store/badger.go: Put, Get", "pkg/derivation/store/util.go: validateDerivationInStore", "pkg/derivation/drv_path.go: DrvPath"]}
{"id": "C123", "title": "Copying a derivation store", "statement": "Whatever is in a MapStore after any history, its derivations put into a new MapStore in any build order are all accepted under the same paths, and the new store then has exactly the same content; put into a new BadgerStore they are accepted too, when each has at most one input derivation or a fixed output (see C63), and Get reads their texts. Provided that derivations put under one derivation path are the same derivation with the same hash modulo inputs (see C61, C62).", "quantifier": "All histories, all build orders of the resulting store.", "why_tests_cant": "It compares two stores over every history and every order of copying.", "anchors": ["pkg/derivation/store/map.go: Put, Get, Has", "pkg/derivation/store/badger.go: Put, Get, Has", "pkg/derivation/store/util.go: checkOutputPaths", "pkg/derivation/hashes.go: CalculateDrvReplacement"]}
{"id": "C124", "title": "The memory an archive can make the Reader ask for", "statement": "Whatever bytes come in, nar.Reader never asks for a buffer of more than 4095 bytes at once: with that budget every history of calls has the same results as without one, and 4095 is exact. All names in the reported paths have at most 255 bytes. wire.ReadBytesFull in contrast asks for as many bytes as the length field says, up to the caller's limit, before it has seen any content: a budget is enough for all streams if and only if it is at least the limit.", "quantifier": "All streams (any bytes, chunking and final error), all histories of Next, Read and Close, all budgets and limits below 2^63.", "why_tests_cant": "A hostile length can stand in any field of any nesting; tests try a few of them, and a large allocation usually succeeds in a test.", "anchors": ["pkg/nar/reader.go: NewReader, Next, parseNode, expectString, tokenLenMax, nameLenMax, pathLenMax", "pkg/wire/read.go: ReadBytesFull, ReadString"]}
{"id": "C125", "title": "What was read can be written and read again", "statement": "Any text ReadDerivation accepts gives a derivation that WriteDerivation writes as one text, on every working writer. That text is read as the same derivation exactly if the platform and the builder need no escaping and every other string that is written without escaping, put between quotes, closes the quotes and brackets it opens and hides no separator. In particular a text whose strings are properly quoted is brought into a normal form: reading and writing the result changes nothing any more. A text with an unbalanced string in last place is accepted, written, and read as another derivation.", "quantifier": "All texts ReadDerivation accepts, canonical or not (any json decoder, any chunking), all writers that do not fail.", "why_tests_cant": "It is about every accepted text, including those no encoder would write; tests only read files Nix wrote.", "anchors": ["pkg/derivation/parser.go: ReadDerivation, parseDerivation, arrayEach, unquote, unquoteSlice", "pkg/derivation/encode.go: WriteDerivation"]}
{"id": "C126", "title": "Which texts say which hash", "statement": "ParseAny accepts exactly the texts '<algo>:<digest>', '<algo>-<base64 digest>' and, where the caller names the algorithm, '<digest>', with the algorithm one of the four and the one the caller named if any; the digest is base 16 in either case or Nix base 32 of exactly the algorithm's size, or a base 64 text of the length the algorithm's digests have in base 64, line breaks counted but not read and the spare bits of the last digit ignored. The encoding, the presence of a prefix and the digest it returns are what the text says, and no text says two things. Format writes such a text.", "quantifier": "All strings, all algorithms given or not.", "why_tests_cant": "It is an equivalence over all strings: tests show some accepted and some refused ones, not that there are no others or that no two readings coincide.", "anchors": ["pkg/nixhash/parse.go: ParseAny, ParseNixBase32", "pkg/nixhash/hash.go: Format", "pkg/narinfo/signature/util.go: decode"]}
