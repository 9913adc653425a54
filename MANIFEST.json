{
 "claims": [
  {
   "property": "C01",
   "status": "proved",
   "theorems": [
    "C01_uint64_roundtrip",
    "C01_bool_roundtrip",
    "C01_bytes_roundtrip",
    "C01_string_roundtrip"
   ],
   "note": ""
  },
  {
   "property": "C02",
   "status": "proved",
   "theorems": [
    "C02_layout",
    "C02_padding_is_least",
    "C02_le8_is_little_endian"
   ],
   "note": ""
  },
  {
   "property": "C03",
   "status": "proved",
   "theorems": [
    "C03_fragmentation"
   ],
   "note": ""
  },
  {
   "property": "C04",
   "status": "proved",
   "theorems": [
    "C04_result_bounded",
    "C04_too_long_rejected",
    "C04_never_panics",
    "C08_acceptance_exact_partial"
   ],
   "note": "acceptance within the limit is C08_acceptance_exact_partial"
  },
  {
   "property": "C05",
   "status": "proved",
   "theorems": [
    "C05_bool_exact",
    "C05_bool_no_panic"
   ],
   "note": ""
  },
  {
   "property": "C06",
   "status": "proved",
   "theorems": [
    "C06_writer_protocol",
    "C06_closed_is_field",
    "C06_success_is_complete"
   ],
   "note": ""
  },
  {
   "property": "C07",
   "status": "proved",
   "theorems": [
    "C07_reads_then_close",
    "C07_bad_padding_fails",
    "C07_restriction_needed"
   ],
   "note": "for streams that do not hand out an error other than io.EOF together with the very last bytes (C07_restriction_needed shows what happens then: Close reports that error)"
  },
  {
   "property": "C08",
   "status": "partial",
   "theorems": [
    "C08_refuted_nonzero",
    "C08_refuted_missing",
    "C08_acceptance_exact_partial"
   ],
   "note": "FALSE of the code: ReadBytesFull (read.go:77-96) drops the error of the deferred Close, so string fields with non-zero or missing padding are accepted. Refuted by witness; the exact acceptance condition is proved."
  },
  {
   "property": "C09",
   "status": "proved",
   "theorems": [
    "C09_decode_encode",
    "C09_encode_meets_spec",
    "C09_encode_stays_in_range"
   ],
   "note": ""
  },
  {
   "property": "C10",
   "status": "proved",
   "theorems": [
    "C10_decode_exact",
    "C10_canonical",
    "C10_injective",
    "C10_acceptance",
    "C10_value_means_alphabet",
    "C10_never_panics"
   ],
   "note": ""
  },
  {
   "property": "C100",
   "status": "partial",
   "theorems": [
    "C100_plain_directory_partial",
    "C100_file_uri_partial",
    "C100_never_panics",
    "C100_other_directory_refuted"
   ],
   "note": "Exact condition for texts without scheme; refuted for the others. net/url's Parse is modelled (GoUrl.v, GoUrlAuth.v)."
  },
  {
   "property": "C101",
   "status": "partial",
   "theorems": [
    "C101_request_partial",
    "C101_any_path_partial",
    "C101_ordinary_base",
    "C101_sent_path",
    "C101_opaque_base_refuted",
    "C101_encoded_slash_refuted",
    "C101_zone_refuted"
   ],
   "note": "Proved for every base with // and a host that is not an address in brackets, or in brackets if the URL is ASCII. False for opaque bases, for IPv6 zones beyond ASCII (no request can be made) and, as to encoding, for encoded slashes."
  },
  {
   "property": "C102",
   "status": "partial",
   "theorems": [
    "C102_program",
    "C102_success_is_complete",
    "C102_readable_tree_partial",
    "C102_exact",
    "C102_only_a_beginning"
   ],
   "note": "Partial only because readable trees with names beginning with .. fail (C38_dump_refuted); C102_exact: exactly those fail."
  },
  {
   "property": "C103",
   "status": "proved",
   "theorems": [
    "C103_scan_dump",
    "C103_dump_references"
   ],
   "note": "Which places of a text the scanner looks at is C24."
  },
  {
   "property": "C104",
   "status": "partial",
   "theorems": [
    "C104_by_value_partial",
    "C104_reuse_closed_partial",
    "C104_one_struct_refuted",
    "C104_moved_refuted"
   ],
   "note": "False: the emitter reads Path and Type of the open entries again. Proved for all histories in which these two fields of a struct stay as they are while its entry is open (other fields may change); one struct for all entries, or a changed path, silently gives another archive."
  },
  {
   "property": "C105",
   "status": "partial",
   "theorems": [
    "C105_put_has",
    "C105_get_shares",
    "C105_unchanged_partial",
    "C105_changed_refuted",
    "C105_badger_keeps_text",
    "C105_badger_get"
   ],
   "note": "True of the BadgerStore and of Put and Has of the MapStore. False of the MapStore's Get, which returns the shared struct with its content now; true again if accepted structs are not changed."
  },
  {
   "property": "C106",
   "status": "proved",
   "theorems": [
    "C106_success_was_seen",
    "C106_seen_is_dumped",
    "C106_still_tree",
    "C106_torn_dump"
   ],
   "note": "ReadDir is assumed to list distinct valid names in order (it sorts); an example shows what happens otherwise. The converse excludes names that begin with \"..\" (C38). C106_torn_dump: the tree need not have existed at any one moment."
  },
  {
   "property": "C107",
   "status": "partial",
   "theorems": [
    "C107_dump_trace",
    "C107_store_trace",
    "C107_dump_returns",
    "C107_dump_closes",
    "C107_http_closes",
    "C107_file_store_refuted"
   ],
   "note": "False of FSStore.Get, which never closes the file it opens: n calls leave n files open. Proved for dumps (on directories of bounded depth) and for the HTTP store."
  },
  {
   "property": "C108",
   "status": "partial",
   "theorems": [
    "C108_sent",
    "C108_received_partial",
    "C108_conversation_partial",
    "C108_received_last_partial",
    "C108_exact",
    "C108_conversation_refuted"
   ],
   "note": "Missing only the trees with an entry named \")\" (C28); C108_exact: the conversations every part of which is received are exactly those without one. As the last message such a tree is received if nothing comes after the entry."
  },
  {
   "property": "C109",
   "status": "partial",
   "theorems": [
    "C109_within",
    "C109_in_order",
    "C109_together",
    "C109_ancestors",
    "C109_symlink_refuted",
    "C109_checked_partial"
   ],
   "note": "The last clause is false of the code: a path may be reported as a symlink and at once again as a directory with entries (C109_symlink_refuted). C109_checked_partial: it holds for every history in which no two neighbouring headers have the same path, so that comparing each path with the one before is enough. The other clauses are proved for every stream."
  },
  {
   "property": "C11",
   "status": "proved",
   "theorems": [
    "C11_encode_length_alphabet",
    "C11_decode_length",
    "C11_lengths_inverse",
    "C11_is_alphabet"
   ],
   "note": ""
  },
  {
   "property": "C110",
   "status": "partial",
   "theorems": [
    "C110_accepts_partial",
    "C110_accepts_all",
    "C110_canonical",
    "C110_exact_refuted",
    "C110_unique_refuted"
   ],
   "note": "False of the code: a node without a type is accepted and reports nothing, tokens between the entries of a directory are skipped, the padding of tokens is not checked and may be missing at the end, an entry called \")\" ends the directory (Spec/NarAccept.v). C110_accepts_partial and C110_accepts_all prove the exact language: the Reader reaches io.EOF precisely on the streams of that grammar with ordered paths (or when the stream itself ends inside an archive, see C29/C30), reports exactly the nodes the grammar gives, and stops right behind them. C110_canonical: the grammar contains all canonical archives."
  },
  {
   "property": "C111",
   "status": "proved",
   "theorems": [
    "C111_NewHash",
    "C111_constructors",
    "C111_MustParseNixBase32",
    "C111_prints"
   ],
   "note": ""
  },
  {
   "property": "C112",
   "status": "partial",
   "theorems": [
    "C112_refuted_digest",
    "C112_refuted_name",
    "C112_refuted_empty",
    "C112_exact_partial",
    "C112_roundtrip_partial",
    "C112_no_panic",
    "C112_parsed"
   ],
   "note": "FALSE of the code: digests longer than 20 bytes, names with a slash that path.Join cleans away, and empty names pass. Proved: exactly what passes for names without a slash (digest of at least 20 bytes, name over the alphabet), and the full claim for 20-byte digests and non-empty slash-free names."
  },
  {
   "property": "C113",
   "status": "partial",
   "theorems": [
    "C113_read_back_partial",
    "C113_exact",
    "C113_name_refuted",
    "C113_target_refuted",
    "C113_paren_refuted"
   ],
   "note": "FALSE of the code beyond the Reader's limits, which the Writer does not know: a name of 256 bytes or a symlink target of 4096 is written and cannot be read, an entry named ) silently hides the rest of its directory. Proved for every successful history (any sink, any chunking) of headers within these limits in which nothing but its contents follows a path ending in /) (C113_exact: exactly these), with the restrictions of C36 (canonical paths, no path twice in a row, known types)."
  },
  {
   "property": "C114",
   "status": "partial",
   "theorems": [
    "C114_map_partial",
    "C114_badger_partial",
    "C114_name_refuted",
    "C114_alphabet_refuted",
    "C114_order_refuted",
    "C114_badger_refuted"
   ],
   "note": "FALSE of the code: an output called name (or __json) overwrites the variable the name is read from, output names outside the store-path alphabet give paths Put refuses, two inputs with the same replacement string and different outputs make the result depend on map order, and the badger store refuses two inputs. Proved for every history of the MapStore, every other derivation and every iteration order; for the badger store with at most one input or a fixed output."
  },
  {
   "property": "C115",
   "status": "partial",
   "theorems": [
    "C115_serial_partial",
    "C115_sees_partial",
    "C115_invisible_partial",
    "C115_done",
    "C115_handles",
    "C115_nix_partial",
    "C115_path_info_partial",
    "C115_binary_cache_partial",
    "C115_fetcher_partial",
    "C115_eval_partial",
    "C115_refuted"
   ],
   "note": "FALSE without a condition on the caller: if a statement fails so that SQLite rolls the transaction back (disk full, I/O error) and the caller goes on, later statements of the transaction are executed on their own. Proved for every interleaving, failure and crash as long as nobody goes on with a transaction after a statement of it could not be executed (constraint errors are fine). SQLite's isolation and database/sql are trusted, as stated in Model/SqliteTx.v."
  },
  {
   "property": "C116",
   "status": "partial",
   "theorems": [
    "C116_copy_partial",
    "C116_exact",
    "C116_copyable_iff",
    "C116_read_again_partial",
    "C116_read_again_exact",
    "C116_repeat_refuted"
   ],
   "note": "FALSE as stated: an archive with the same directory twice in a row is read, copied without an error, and the copy has an entry called \".\". Proved for every stream, session and sink unless a path is reported twice in a row; C116_exact shows that this is exactly the condition, C116_copyable_iff says exactly which reports can be copied at all; reading back additionally needs that nothing but its contents follows a path ending in /) (C113; C116_read_again_exact: exactly then)."
  },
  {
   "property": "C117",
   "status": "proved",
   "theorems": [
    "C117_read_while_written"
   ],
   "note": "For every history, interruption point, fragmentation and continuation of the stream."
  },
  {
   "property": "C118",
   "status": "proved",
   "theorems": [
    "C118_between_chunks",
    "C118_inside_a_chunk",
    "C118_refused"
   ],
   "note": "For every stream, history and cut; buffers of Read are not empty (a Read of zero bytes on an exhausted source may return its error). The second stream, if it ends at the cut, does not report its final error together with its last bytes."
  },
  {
   "property": "C119",
   "status": "partial",
   "theorems": [
    "C119_outputs_differ",
    "C119_output_paths",
    "C119_text_partial",
    "C119_DrvPath_partial",
    "C119_outputs_tell_partial",
    "C119_arguments_refuted",
    "C119_name_refuted"
   ],
   "note": "Outputs of one derivation always differ. For two derivations: the same path means the same text, or an explicit collision; the same text means the same contents only if the strings that are written without escaping (arguments, output names, variable names, hashes) are neat (C49: they close the quotes and brackets they open and hide no comma of an array). Without that the claim is false of the code: C119_arguments_refuted (two valid derivations with different arguments and the same paths for every hash function), and with slashes in the name the hash part can be cut off (C119_name_refuted)."
  },
  {
   "property": "C12",
   "status": "partial",
   "theorems": [
    "C12_refuted",
    "C12_agree_on_canonical_lengths_partial",
    "C12_decodable_is_valid",
    "C12_valid_but_undecodable_only_by_length",
    "C12_never_panics"
   ],
   "note": "FALSE of the code for strings whose length is not an encoded length (e.g. \"z00\"): ValidateString accepts, DecodeString rejects. Proved: agreement on all canonical lengths, and disagreement only there."
  },
  {
   "property": "C120",
   "status": "partial",
   "theorems": [
    "C120_download_partial",
    "C120_publish"
   ],
   "note": "Partial for the same reasons as C86 (no reference of the downloaded narinfo contains ',/nix/store/', see C86_references_refuted) and as C28 (the Reader reads the tree back when nothing comes after an entry named ')', see C28_listed_exact). The hash function is arbitrary: the alternative is an explicit collision."
  },
  {
   "property": "C121",
   "status": "proved",
   "theorems": [
    "C121_path",
    "C121_one_tree",
    "C121_same_tree"
   ],
   "note": "The hash function is arbitrary with 32-byte digests: the alternatives to equal trees are explicit collisions. go_sized says that sizes fit in a Go int64, as they do for every tree that exists."
  },
  {
   "property": "C122",
   "status": "proved",
   "theorems": [
    "C122_build_order",
    "C122_acyclic",
    "C122_same_inputs",
    "C122_badger",
    "C122_collision_refuted"
   ],
   "note": "C122_collision_refuted shows that the exception in the statement is real: with colliding hashes a derivation can be its own input."
  },
  {
   "property": "C123",
   "status": "proved",
   "theorems": [
    "C123_copy",
    "C123_copy_to_badger"
   ],
   "note": "The proviso is no_path_clash in Spec/StoreSpec.v; what goes wrong without it is C61_order_refuted and C62_overwrite_refuted, and with two inputs in a BadgerStore C63_two_inputs_refuted."
  },
  {
   "property": "C124",
   "status": "proved",
   "theorems": [
    "C124_budget",
    "C124_budget_least",
    "C124_full",
    "C124_names"
   ],
   "note": "Counted are the buffers whose size the stream decides (make in ReadBytesFull); path strings and the goroutine's stack are not."
  },
  {
   "property": "C125",
   "status": "partial",
   "theorems": [
    "C125_again_exact",
    "C125_normal_form_partial",
    "C125_refuted"
   ],
   "note": "Not every accepted text survives: C125_again_exact gives the exact condition, C125_refuted a text that does not."
  },
  {
   "property": "C126",
   "status": "proved",
   "theorems": [
    "C126_exact",
    "C126_unambiguous",
    "C126_format_says",
    "C126_decoders",
    "C126_base64_only",
    "C126_base64_of"
   ],
   "note": "Against Spec/HashTextSpec.v, where base 16 and base 64 are defined by the numbers the texts denote."
  },
  {
   "property": "C13",
   "status": "partial",
   "theorems": [
    "C13_refuted_stale",
    "C13_refuted_panic",
    "C13_refuted_long_dst",
    "C13_decode_ors_into_dst_partial",
    "C13_decode_into_zeroed",
    "C13_no_panic_if_large_enough",
    "C13_panic_exact",
    "C13_success_exact",
    "C13_success_value",
    "C13_encode_into_buffer"
   ],
   "note": "FALSE of the code as stated: Decode ORs into dst, panics for some short dst, accepts non-canonical lengths with a long dst. The exact effect, and exactly when it panics and when it succeeds, are proved."
  },
  {
   "property": "C14",
   "status": "proved",
   "theorems": [
    "C14_parse_inverts_format",
    "C14_ParseNixBase32",
    "C14_ParseNixBase32_exact"
   ],
   "note": ""
  },
  {
   "property": "C15",
   "status": "partial",
   "theorems": [
    "C15_refuted_short",
    "C15_refuted_long",
    "C15_refuted_newlines",
    "C15_digest_length_partial"
   ],
   "note": "FALSE of the code for base64/SRI texts (ParseAny checks only the text length): digests of 31, 33 or even 0 bytes for sha256. Proved: exact length for Base16 and NixBase32, upper bound for base64."
  },
  {
   "property": "C16",
   "status": "proved",
   "theorems": [
    "C16_algorithm_honoured",
    "C16_algorithm_required",
    "C16_unknown_prefix_fails",
    "C16_never_panics"
   ],
   "note": ""
  },
  {
   "property": "C17",
   "status": "proved",
   "theorems": [
    "C17_prints_back",
    "C17_restriction_needed"
   ],
   "note": ""
  },
  {
   "property": "C18",
   "status": "proved",
   "theorems": [
    "C18_compress_xor",
    "C18_linear",
    "C18_panics_iff"
   ],
   "note": ""
  },
  {
   "property": "C19",
   "status": "proved",
   "theorems": [
    "C19_string_roundtrip",
    "C19_absolute_roundtrip",
    "C19_printed_form"
   ],
   "note": ""
  },
  {
   "property": "C20",
   "status": "partial",
   "theorems": [
    "C20_refuted_slash",
    "C20_refuted_separator",
    "C20_refuted_empty_name",
    "C20_refuted_absolute_prefix",
    "C20_refuted_cleaned",
    "C20_well_formed_accepted",
    "C20_validate_exact_partial",
    "C20_FromString_exact_partial",
    "C20_FromString_any_partial",
    "C20_FromAbsolutePath_exact_partial"
   ],
   "note": "FALSE of the code: Validate ignores the byte before the hash and the separator and allows an empty name; FromAbsolutePath ignores the store directory and what path.Join cleans away. Proved: every well-formed path is accepted, and the exact sets accepted by Validate, FromString and FromAbsolutePath."
  },
  {
   "property": "C21",
   "status": "proved",
   "theorems": [
    "C21_never_panics",
    "C21_prints_back"
   ],
   "note": ""
  },
  {
   "property": "C22",
   "status": "proved",
   "theorems": [
    "C22_chunking",
    "C22_write_consumes_all"
   ],
   "note": ""
  },
  {
   "property": "C23",
   "status": "proved",
   "theorems": [
    "C23_reported_are_real",
    "C23_sorted_no_duplicate_hash",
    "C23_monotone"
   ],
   "note": ""
  },
  {
   "property": "C24",
   "status": "partial",
   "theorems": [
    "C24_refuted",
    "C24_reported_exactly_partial",
    "C24_not_missed_after_separator_partial"
   ],
   "note": "FALSE of the code: windows of 32 base32 characters are scanned without overlap, so a hash preceded by other base32 characters is missed. Proved: the exact set reported, and that a hash after a non-base32 byte is never missed."
  },
  {
   "property": "C25",
   "status": "partial",
   "theorems": [
    "C25_path_order_partial",
    "C25_component_order_accepted_partial",
    "C25_path_order_refuted"
   ],
   "note": "FALSE of the code: the function accepts a pair when it is in byte order OR in component order, so /foo-a and /foo/b are accepted both ways. Proved: exactly that union."
  },
  {
   "property": "C26",
   "status": "partial",
   "theorems": [
    "C26_validate_exact",
    "C26_fileinfo_partial",
    "C26_fileinfo_windows",
    "C26_fileinfo_refuted",
    "C26_validate_refuted"
   ],
   "note": "Validate's exact set is proved for all headers; FALSE of the code: FileInfo().Mode() of a directory lacks the directory bit (on Unix, not on Windows); Validate accepts negative sizes and unknown types."
  },
  {
   "property": "C27",
   "status": "partial",
   "theorems": [
    "C27_writes_the_tree_partial",
    "C27_exact",
    "C27_writes_the_tree_refuted"
   ],
   "note": "Proved for every tree whose names do not begin with '..'; false for the others (writer.go:228 takes '..x' for a path going up), witness given. C27_exact: a valid tree can be written if and only if no name begins with '..'."
  },
  {
   "property": "C28",
   "status": "partial",
   "theorems": [
    "C28_reads_the_tree_partial",
    "C28_exact",
    "C28_only_these",
    "C28_listed",
    "C28_listed_exact",
    "C28_listed_none",
    "C28_listed_paths",
    "C28_reads_the_tree_refuted",
    "C28_misplaced_refuted"
   ],
   "note": "Proved for all trees without an entry named \")\", all schedules and fragmentations; FALSE of the code for an entry named \")\", which ends the directory early. C28_exact: the trees read properly from every stream are exactly those without such an entry. C28_listed_exact: the trees whose nodes are all reported properly from every stream are exactly those in which nothing comes after such an entry (then k closing tokens are left unread, C28_listed); otherwise a node may be reported at another's path (C28_misplaced_refuted: /q/z as /z)."
  },
  {
   "property": "C29",
   "status": "partial",
   "theorems": [
    "C29_round_trip_partial",
    "C29_exact",
    "C29_listed_exact"
   ],
   "note": "Proved for every tree whose names neither begin with '..' (Writer bug, C27) nor equal ')' (Reader bug, C28), within the reader's length limits. C29_exact: of those within the limits exactly these survive (with nothing of the archive left unread); C29_listed_exact: the trees whose headers and contents survive are exactly the writable ones in which nothing comes after an entry named ')'."
  },
  {
   "property": "C30",
   "status": "partial",
   "theorems": [
    "C30_exact_partial",
    "C30_broken_stream_partial",
    "C30_cut_headers_partial",
    "C30_pieces_partial",
    "C30_truncation_partial",
    "C30_truncation_refuted",
    "C30_padding_refuted"
   ],
   "note": "FALSE of the code: a cut in front of a free string, behind its length field or in a file's contents on a stream ending with io.EOF, or in the padding of the last token on any stream, is reported as io.EOF. The exact condition is proved for every archive, cut, stream and consumer (C30_exact_partial; looks_complete is in Spec/NarCut.v), and that only true headers come before the error."
  },
  {
   "property": "C31",
   "status": "proved",
   "theorems": [
    "C31_errors_sticky"
   ],
   "note": ""
  },
  {
   "property": "C32",
   "status": "partial",
   "theorems": [
    "C32_headers_form_a_tree_partial",
    "C32_paths",
    "C32_header_fields",
    "C32_distinct_refuted",
    "C109_in_order",
    "C109_checked_partial"
   ],
   "note": "Proved for every stream except distinctness of the paths, which is FALSE of the code."
  },
  {
   "property": "C33",
   "status": "proved",
   "theorems": [
    "C33_terminates",
    "C33_next_returns",
    "C33_eventually_an_error"
   ],
   "note": ""
  },
  {
   "property": "C34",
   "status": "partial",
   "theorems": [
    "C34_close_partial",
    "C34_close_refuted"
   ],
   "note": "FALSE of the code: Close after a header leaves the parser goroutine blocked for ever and a second Close panics. Proved for Close before the first Next and after any error of the parser (not only io.EOF); a second Close is Ok after io.EOF and panics exactly when io.EOF was not returned."
  },
  {
   "property": "C35",
   "status": "partial",
   "theorems": [
    "C35_earlier_files_complete",
    "C35_close_files_complete_partial",
    "C35_too_long_rejected",
    "C35_short_file_refuted"
   ],
   "note": "WriteHeader half, over-long writes and writes to symlinks/directories proved for every history on every sink; Close half needs that no WriteHeader failed before: after a failed WriteHeader Close returns nil although a file is short (refuted theorem)."
  },
  {
   "property": "C36",
   "status": "partial",
   "theorems": [
    "C36_closed_is_valid_partial",
    "C36_always_a_tree",
    "C36_exact",
    "C36_repeated_refuted",
    "C36_unclean_refuted",
    "C36_unknown_type_refuted"
   ],
   "note": "Proved for every sink, every content chunking and all headers with canonical paths, no path twice in a row, and a known type; each restriction is shown necessary by a refuted theorem. C36_exact: with canonical paths the output is a valid archive if and only if no path came twice in a row; C36_always_a_tree: with any paths at all it is the serialisation of some tree with the nodes written."
  },
  {
   "property": "C37",
   "status": "partial",
   "theorems": [
    "C37_failure_reported_partial",
    "C37_after_failure_refuted",
    "C36_closed_is_valid_partial"
   ],
   "note": "Every call that hits a sink failure reports it (all states). The rest is false: after every failed WriteHeader, Close returns nil and WriteHeader blocks forever (proved for all states)."
  },
  {
   "property": "C38",
   "status": "partial",
   "theorems": [
    "C38_dump_filter_partial",
    "C38_dump_partial",
    "C38_exact",
    "C38_root_rejected",
    "C38_dump_refuted"
   ],
   "note": "Proved for every readable tree, filter, read fragmentation and prefix whose kept names do not begin with '..'; false for the others (the Writer refuses '..x', C27), witness given. C38_exact: dumping a readable tree succeeds if and only if no kept name begins with '..' (and sizes fit). The file system is a parameter that does not change during the dump."
  },
  {
   "property": "C39",
   "status": "proved",
   "theorems": [
    "C39_success_is_complete"
   ],
   "note": "For every writer (any failure point), any tree with unreadable, special and vanished nodes and any size/content mismatch."
  },
  {
   "property": "C40",
   "status": "partial",
   "theorems": [
    "C40_listing_validated_partial",
    "C40_order_irrelevant",
    "C40_listing_validated_refuted"
   ],
   "note": "Exact set of accepted listings proved; FALSE of the code: fields of nodes without entries are not checked and a null entry is a nil dereference. encoding/json is a parameter."
  },
  {
   "property": "C41",
   "status": "partial",
   "theorems": [
    "C41_parse_inverts_string_partial",
    "C41_lossless_iff_partial",
    "C41_wf_lossless",
    "C41_file_hash_dropped_refuted",
    "C41_file_size_dropped_refuted"
   ],
   "note": "Proved for every well-formed NarInfo and every fragmentation of the printed text into non-empty reads, lines below 1 MiB; false for a FileHash with FileSize 0 and a FileSize without FileHash, which String drops (witnesses given). C41_lossless_iff_partial is the exact condition."
  },
  {
   "property": "C42",
   "status": "proved",
   "theorems": [
    "C42_text_exact",
    "C42_reads_is_text",
    "C42_accepted",
    "C42_accepts",
    "C42_exact",
    "C42_long_line",
    "C42_never_panics",
    "C42_reads_functional"
   ],
   "note": "Both directions against an independent line/key/value specification."
  },
  {
   "property": "C43",
   "status": "proved",
   "theorems": [
    "C43_fingerprint_form",
    "C43_fingerprint_injective"
   ],
   "note": ""
  },
  {
   "property": "C44",
   "status": "partial",
   "theorems": [
    "C44_check_exact_partial",
    "C44_check_syntax_partial",
    "C44_store_path_refuted",
    "C44_no_panic_partial",
    "C44_parsed_no_panic",
    "C44_panic_refuted"
   ],
   "note": "Exact acceptance condition proved, and no panic for known hash algorithms (all parsed narinfos). FALSE of the code: any 11-byte prefix is accepted for StorePath, and a hash of unknown algorithm panics while the message is built."
  },
  {
   "property": "C45",
   "status": "proved",
   "theorems": [
    "C45_exact",
    "C45_again",
    "C45_signature_roundtrip",
    "C45_public_key_roundtrip",
    "C45_secret_key_roundtrip",
    "C45_accepted",
    "C45_prints_back"
   ],
   "note": ""
  },
  {
   "property": "C46",
   "status": "proved",
   "theorems": [
    "C46_verify_sound",
    "C46_verify_single_sound",
    "C46_no_panic"
   ],
   "note": "ed25519 verification is a parameter."
  },
  {
   "property": "C47",
   "status": "partial",
   "theorems": [
    "C47_verify_complete_partial",
    "C47_first_match_decides_partial",
    "C47_verify_complete_refuted"
   ],
   "note": "FALSE of the code: the first signature whose key name is known decides; proved exactly that."
  },
  {
   "property": "C48",
   "status": "proved",
   "theorems": [
    "C48_signing_verifies"
   ],
   "note": "ed25519's correctness is a hypothesis, shown satisfiable."
  },
  {
   "property": "C49",
   "status": "partial",
   "theorems": [
    "C49_round_trip_partial",
    "C49_exact",
    "C49_exact_all",
    "C49_literals_neat",
    "C49_argument_refuted",
    "C49_builder_refuted"
   ],
   "note": "Round trip proved when the strings written unescaped are literals (no bare quote), platform/builder need no escaping, the name agrees with __json and Validate's verdict is unambiguous. C49_exact: the exact condition on the strings (neat_drv, Spec/RoundSpec.v), for every derivation that is not ambiguous; C49_exact_all: for every derivation, the verdict on the text spelt out (Spec/ValidSpec.v). False in general: arguments are written unescaped, builder/platform are escaped on writing but not unescaped on reading (refuted theorems)."
  },
  {
   "property": "C50",
   "status": "partial",
   "theorems": [
    "C50_lossless_partial",
    "C50_exact",
    "C50_exact_all",
    "C50_builder_refuted"
   ],
   "note": "Proved for canonical texts whose platform and builder contain nothing to escape; refuted for a builder with a backslash. C50_exact: of all canonical texts these are exactly the ones that come back unchanged. C50_exact_all: of all texts that can be read exactly the neat ones (Spec/ValidSpec.v) come back."
  },
  {
   "property": "C51",
   "status": "proved",
   "theorems": [
    "C51_unescape_escape",
    "C51_no_bare_quote",
    "C51_unquote_escapeString"
   ],
   "note": ""
  },
  {
   "property": "C52",
   "status": "partial",
   "theorems": [
    "C52_write_order",
    "C52_DrvPath_order",
    "C52_hash_order_partial",
    "C52_hash_order_exact",
    "C52_hash_order_refuted"
   ],
   "note": "WriteDerivation and DrvPath in full; the hashes whenever inputs that share a replacement have the same outputs; refuted otherwise, and C52_hash_order_exact shows that this is exactly when the hash does not depend on the order."
  },
  {
   "property": "C53",
   "status": "partial",
   "theorems": [
    "C53_validate_iff_partial",
    "C53_order_partial",
    "C53_exact",
    "C53_always",
    "C53_sometimes",
    "C53_depends",
    "C53_accepted",
    "C53_no_panic",
    "C53_order_refuted"
   ],
   "note": "Exact characterisation except for derivations with both a name variable and a nameless __json, where the verdict depends on map order (refuted). C53_exact: the verdict for every order; C53_always, C53_sometimes: what is accepted in every (some) order; C53_depends: of those of the right shape exactly these depend on it."
  },
  {
   "property": "C54",
   "status": "partial",
   "theorems": [
    "C54_total_partial",
    "C54_panics_iff",
    "C54_nameless_iff",
    "C54_total_refuted"
   ],
   "note": "Panics exactly when Name() is empty; Validate accepts name=\"\" (refuted)."
  },
  {
   "property": "C55",
   "status": "proved",
   "theorems": [
    "C55_DrvPath",
    "C55_escape_refuted"
   ],
   "note": "The refuted theorem shows why valid name characters are needed: Validate does not check the name, and path.Join cleans it."
  },
  {
   "property": "C56",
   "status": "proved",
   "theorems": [
    "C56_fixed_path",
    "C56_fixed_replacement"
   ],
   "note": ""
  },
  {
   "property": "C57",
   "status": "partial",
   "theorems": [
    "C57_masked",
    "C57_fill_partial",
    "C57_fill_refuted"
   ],
   "note": "Filling in needs that no output is called name or __json; refuted for an output called name."
  },
  {
   "property": "C58",
   "status": "partial",
   "theorems": [
    "C58_replaced_partial",
    "C58_missing_partial",
    "C58_missing_paths_partial",
    "C58_empty_refuted",
    "C58_union_refuted"
   ],
   "note": "Faithful when inputs whose replacements coincide have the same outputs; missing is an error unless the map is empty (refuted) or the derivation is fixed-output; coinciding replacements of inputs with different outputs lose outputs (refuted)."
  },
  {
   "property": "C59",
   "status": "partial",
   "theorems": [
    "C59_no_panic_partial",
    "C59_sorted",
    "C59_no_panic_refuted"
   ],
   "note": "Never panics unless __json is the JSON null (refuted: nil dereference); accepted texts list their maps in strictly increasing order and nothing is overwritten."
  },
  {
   "property": "C60",
   "status": "partial",
   "theorems": [
    "C60_exact",
    "C60_orders",
    "C60_accepts_iff_partial",
    "C60_nothing_dropped_partial",
    "C60_junk_refuted",
    "C60_two_bytes_refuted",
    "C60_missing_fields_refuted"
   ],
   "note": "Exact description of the accepted texts; it is wider than the grammar (refuted theorems)."
  },
  {
   "property": "C61",
   "status": "partial",
   "theorems": [
    "C61_put",
    "C61_has_get",
    "C61_accepts",
    "C61_accepts_graph_partial",
    "C61_put_panics",
    "C61_order_refuted"
   ],
   "note": "Exact effect of every Put/Get/Has over every history, and exact acceptance condition. The verdict of Put depends on the order maps are walked when two inputs with different outputs share a replacement string (refuted)."
  },
  {
   "property": "C62",
   "status": "partial",
   "theorems": [
    "C62_closed",
    "C62_consistent_partial",
    "C62_one_drv_a_path",
    "C62_no_path_clash",
    "C62_overwrite_refuted"
   ],
   "note": "Closure and validity proved for every history; output paths stay consistent when no two different stored derivations share a derivation path (no_path_clash; C62_one_drv_a_path: that is so unless hashed texts collide or a string is badly quoted); refuted without it."
  },
  {
   "property": "C63",
   "status": "partial",
   "theorems": [
    "C63_agree_partial",
    "C63_puts_partial",
    "C63_exact",
    "C63_two_inputs_refuted",
    "C63_two_inputs_differ_refuted",
    "C63_get_refuted"
   ],
   "note": "Agreement proved for derivations within badger_fit; FALSE of the code otherwise (witnesses). C63_puts_partial: acceptance, paths and Has agree for all histories in which nothing but a fixed output has two inputs, whatever the texts, and Get is then the reading of the text; C63_exact: of what the MapStore accepts the BadgerStore accepts exactly these."
  },
  {
   "property": "C64",
   "status": "proved",
   "theorems": [
    "C64_together",
    "C64_closed",
    "C64_all_or_nothing",
    "C64_steps",
    "C64_alone"
   ],
   "note": "Badger is modelled as a log of atomic transactions; crashes drop uncommitted ones."
  },
  {
   "property": "C65",
   "status": "partial",
   "theorems": [
    "C65_fs_child_partial",
    "C65_store_path_partial",
    "C65_default_dir",
    "C65_escape_refuted",
    "C65_fs_has",
    "C65_fs_get",
    "C65_http_has",
    "C65_http_get",
    "C65_symlink_refuted",
    "C65_put_refused"
   ],
   "note": "Child-of-directory proved for every path whose last component is an entry name (all store paths); refuted for .., empty and /. Has/Get exact. FALSE: on a symlink FSStore.Has is an error while Get reads through it."
  },
  {
   "property": "C66",
   "status": "partial",
   "theorems": [
    "C66_prints_partial",
    "C66_prints_all_partial",
    "C66_refuses_partial",
    "C66_success_partial",
    "C66_errors",
    "C66_truncated_refuted",
    "C66_paren_refuted",
    "C66_misplaced_refuted",
    "C66_terminates"
   ],
   "note": "Proved for every tree in which nothing comes after an entry named ')' (listable, C28_listed_exact); refuted otherwise (reader defect, C28; C66_misplaced_refuted: cat prints the content of /q/z as that of /z, which does not exist). Ends without a panic on every file. Success means the whole file was printed, except that a plain end of file inside the content goes unnoticed (refuted)."
  },
  {
   "property": "C67",
   "status": "partial",
   "theorems": [
    "C67_root_partial",
    "C67_subtree_partial",
    "C67_inside_partial",
    "C67_errors",
    "C67_prefix_refuted",
    "C67_misplaced_refuted",
    "C67_early_exit_refuted",
    "C67_directory_mode_refuted",
    "C67_terminates",
    "C67_exact_partial"
   ],
   "note": "Exact for '/', and for nodes whose path has no sibling with a name that is a prefix of, or extends, a name on the path; refuted otherwise (extra lines, or nothing listed). C67_exact_partial describes the lines for every path whatever. Directories print like executable files. The text goes to standard error (Go's print)."
  },
  {
   "property": "C68",
   "status": "partial",
   "theorems": [
    "C68_parsed_prints_partial",
    "C68_parsed_prints_refuted"
   ],
   "note": "Holds whenever a NarHash line is present; without one both panic (nil dereference), witness given."
  },
  {
   "property": "C69",
   "status": "proved",
   "theorems": [
    "C69_write_errors"
   ],
   "note": ""
  },
  {
   "property": "C70",
   "status": "proved",
   "theorems": [
    "C70_output_paths"
   ],
   "note": ""
  },
  {
   "property": "C71",
   "status": "partial",
   "theorems": [
    "C71_documented_partial",
    "C71_badger_refuted"
   ],
   "note": "Exact for every scheme but badger, where the path is ignored (refuted). url.Parse is modelled in C100."
  },
  {
   "property": "C72",
   "status": "partial",
   "theorems": [
    "C72_aterm_partial",
    "C72_http_partial",
    "C72_exact",
    "C72_http_exact",
    "C72_exact_all",
    "C72_http_exact_all",
    "C72_errors"
   ],
   "note": "As C50, and exact like it: for canonical texts with nothing to escape in platform and builder. The JSON formats are C88-C90."
  },
  {
   "property": "C73",
   "status": "partial",
   "theorems": [
    "C73_same_results_partial",
    "C73_prefix_partial",
    "C73_no_deadlock",
    "C73_terminates",
    "C73_exclusive_partial",
    "C73_ends_partial",
    "C73_read_after_close_refuted",
    "C73_leak_refuted"
   ],
   "note": "Threads with arbitrary interleaving and Go's unbuffered channels; refines the sequential model of C28-C34. Deadlock freedom and termination for all histories; equal results for all histories without a Read after Close. FALSE: after Close the parser goes on reading the archive while the caller may Read (data race, schedule-dependent result), and the goroutine of a Reader closed before the end stays blocked."
  },
  {
   "property": "C74",
   "status": "partial",
   "theorems": [
    "C74_same_results_partial",
    "C74_prefix",
    "C74_deadlock_only",
    "C74_terminates",
    "C74_exclusive",
    "C74_ends",
    "C74_hang_refuted"
   ],
   "note": "Threads with arbitrary interleaving; refines the sequential model of C27, C35-C37. Equal results, output, exclusion, termination, no leak after Close for all histories. FALSE: a WriteHeader after a failed one hangs for ever (C74_hang_refuted); C74_deadlock_only shows that this is the only deadlock."
  },
  {
   "property": "C75",
   "status": "proved",
   "theorems": [
    "C75_fetcher_cache",
    "C75_fetcher_none"
   ],
   "note": "SQLite's statement semantics trusted; transactions are histories of the committed statements."
  },
  {
   "property": "C76",
   "status": "partial",
   "theorems": [
    "C76_attribute_partial",
    "C76_attributes_partial",
    "C76_null_name_refuted"
   ],
   "note": "Proved for names that are not NULL. FALSE for NULL names: stored attributes are never found and duplicates pile up."
  },
  {
   "property": "C77",
   "status": "proved",
   "theorems": [
    "C77_nar",
    "C77_realisation",
    "C77_cache",
    "C77_cache_ids",
    "C77_last_purge",
    "C77_purge_invisible",
    "C77_foreign_key"
   ],
   "note": ""
  },
  {
   "property": "C78",
   "status": "proved",
   "theorems": [
    "C78_path_info",
    "C78_register",
    "C78_ids"
   ],
   "note": ""
  },
  {
   "property": "C79",
   "status": "partial",
   "theorems": [
    "C79_references",
    "C79_closed_partial",
    "C79_invalidate_partial",
    "C79_dangling_refuted"
   ],
   "note": "Symmetry in both settings; closure and the check on InvalidatePath only if the DSN turns foreign keys on. FALSE with the driver's default (off), which NixV10 does not change: C79_dangling_refuted."
  },
  {
   "property": "C80",
   "status": "partial",
   "theorems": [
    "C80_outputs_partial",
    "C80_derivers",
    "C80_gone_partial",
    "C80_stale_refuted"
   ],
   "note": "As C79: without foreign keys the outputs of an invalidated derivation stay."
  },
  {
   "property": "C81",
   "status": "partial",
   "theorems": [
    "C81_from_hash_partial",
    "C81_no_order_refuted"
   ],
   "note": "Proved if the row returned is the first in path order; SQL does not promise that without ORDER BY (SQLite's index scan happens to give it)."
  },
  {
   "property": "C82",
   "status": "proved",
   "theorems": [
    "C82_one_tree",
    "C82_dumps_differ"
   ],
   "note": ""
  },
  {
   "property": "C83",
   "status": "partial",
   "theorems": [
    "C83_dump_cat_partial",
    "C83_dump_cat_refuted"
   ],
   "note": "For writable trees (no name begins with '..', C27) in which nothing comes after an entry named ')' (C28_listed_exact); refuted otherwise, and regular files must not change while they are dumped."
  },
  {
   "property": "C84",
   "status": "partial",
   "theorems": [
    "C84_copy_partial",
    "C84_exact",
    "C84_copy_refuted"
   ],
   "note": "As C28/C27: for writable trees in which nothing comes after an entry named ')' (C28_listed_exact). C84_exact: these are exactly the trees whose archive comes out of such a copy, for every stream that ends with an error other than io.EOF behind it. C84_copy_refuted: an archive with an entry named ')' is copied, without any error, to the archive of another tree."
  },
  {
   "property": "C85",
   "status": "proved",
   "theorems": [
    "C85_publish"
   ],
   "note": "For narinfos that String prints losslessly (wf_narinfo, see C41); ed25519 is any function triple with the correctness property."
  },
  {
   "property": "C86",
   "status": "partial",
   "theorems": [
    "C86_verified_partial",
    "C86_parsed_partial",
    "C86_exact",
    "C86_parsed_exact",
    "C86_mistaken_exact",
    "C86_references_refuted"
   ],
   "note": "Proved for every narinfo that Parse returns in which no reference contains the text ',/nix/store/' (nothing is asked of its store path or its hash), when the signed ones have no ';' and no ',' in them; and for narinfos built by a program. FALSE in general: Parse and Check accept a reference with a comma (path.Join cleans it), so one reference can stand in for two signed ones (C86_references_refuted). C86_exact: with glued references (Spec/GlueSpec.v) exactly; C86_mistaken_exact: exactly which narinfos can be mistaken for another one."
  },
  {
   "property": "C87",
   "status": "partial",
   "theorems": [
    "C87_derivation_file_partial",
    "C87_exact",
    "C87_builder_refuted"
   ],
   "note": "As C49: for derivations whose arguments, platform and builder survive WriteDerivation/ReadDerivation; C87_exact: exactly these are got back."
  },
  {
   "property": "C88",
   "status": "proved",
   "theorems": [
    "C88_json_printed",
    "C88_json_printed_all",
    "C88_no_null",
    "C88_nil_is_null"
   ],
   "note": "encoding/json's encoder is modelled for the types involved (Model/Json.v); the JSON grammar is RFC 8259's (Spec/JsonSpec.v)."
  },
  {
   "property": "C89",
   "status": "proved",
   "theorems": [
    "C89_layout",
    "C89_order"
   ],
   "note": ""
  },
  {
   "property": "C90",
   "status": "partial",
   "theorems": [
    "C90_determined_partial",
    "C90_determined_refuted",
    "C90_exact",
    "C90_alike"
   ],
   "note": "Proved for derivations whose strings are UTF-8. C90_exact says exactly which derivations are printed as the same value. FALSE in general: encoding/json prints every stray byte as U+FFFD, so derivations that differ in such bytes print the same, and two variables can be printed under one key (C90_determined_refuted)."
  },
  {
   "property": "C91",
   "status": "partial",
   "theorems": [
    "C91_structured_name",
    "C91_accepts_iff",
    "C91_case_refuted"
   ],
   "note": "Proved with encoding/json's matching of keys: the name is the last member whose key is \"name\" up to letter case. FALSE for the attribute `name` itself: an attribute NAME or Name that comes later wins, and one that is not a string makes the derivation unreadable (C91_case_refuted)."
  },
  {
   "property": "C92",
   "status": "partial",
   "theorems": [
    "C92_panics_iff",
    "C92_no_panic_refuted"
   ],
   "note": "FALSE: with __json = null the pointer to the struct is nil and is dereferenced; C92_panics_iff shows this is the only way to panic."
  },
  {
   "property": "C93",
   "status": "proved",
   "theorems": [
    "C93_listing_read",
    "C93_listing_accepted",
    "C93_listing_unique"
   ],
   "note": "The exact set of accepted streams and their meaning, from bytes. Which nodes are validated is as in C40 (nodes without entries are not)."
  },
  {
   "property": "C94",
   "status": "partial",
   "theorems": [
    "C94_panics_only",
    "C94_panics_iff",
    "C94_fails_iff",
    "C94_always",
    "C94_no_panic_refuted"
   ],
   "note": "FALSE: an entry that is null is a nil pointer that validateNode dereferences; C94_panics_only shows that only a null entry can make ParseLS panic. C94_panics_iff, C94_fails_iff: some order of the map ranges panics (fails) exactly when the walk can meet a null entry (a fault) first; C94_always: with a null and no fault in reach every order panics."
  },
  {
   "property": "C95",
   "status": "proved",
   "theorems": [
    "C95_fixed",
    "C95_other"
   ],
   "note": ""
  },
  {
   "property": "C96",
   "status": "proved",
   "theorems": [
    "C96_linearizable",
    "C96_only_there",
    "C96_sequential",
    "C96_wait_free"
   ],
   "note": "A database transaction is one step (badger's snapshot transactions; a commit may fail at will). The hypothesis that no two different derivations share a derivation path is part of the property."
  },
  {
   "property": "C97",
   "status": "proved",
   "theorems": [
    "C97_as_alone",
    "C97_finished",
    "C97_exclusive",
    "C97_progress",
    "C97_bounded"
   ],
   "note": "Byte-level steps; sync.Pool hands out any pooled or a new buffer and may drop buffers at any time. Readers and writers keep io.Reader's and io.Writer's contracts (do not retain the slice)."
  },
  {
   "property": "C98",
   "status": "partial",
   "theorems": [
    "C98_stable_partial",
    "C98_exact",
    "C98_printed",
    "C98_two_lines_refuted",
    "C98_cr_refuted"
   ],
   "note": "Proved for texts without carriage returns and with at most one References line (and printed lines below 1 MiB). FALSE in general: references from two lines may join to a text with two separators, which Parse refuses; a value that ends in a carriage return loses it. C98_exact: the exact condition for every parsed narinfo."
  },
  {
   "property": "C99",
   "status": "proved",
   "theorems": [
    "C99_path",
    "C99_accepted",
    "C99_printed",
    "C99_name"
   ],
   "note": "Go's regexp is modelled by the usual meaning of the constructs the two patterns use."
  }
 ]
}