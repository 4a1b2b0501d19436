{
 "claims": [
  {
   "property": "C01",
   "status": "proved",
   "theorems": [
    "plaintext_roundtrip",
    "new_seed_covered"
   ],
   "note": "for non-negative seeds; see C17 for negative ones"
  },
  {
   "property": "C02",
   "status": "proved",
   "theorems": [
    "encrypted_roundtrip"
   ],
   "note": ""
  },
  {
   "property": "C03",
   "status": "proved",
   "theorems": [
    "plaintext_layout",
    "encrypted_layout"
   ],
   "note": ""
  },
  {
   "property": "C04",
   "status": "proved",
   "theorems": [
    "plaintext_canonical",
    "plaintext_seed_exists",
    "decode_injective"
   ],
   "note": ""
  },
  {
   "property": "C05",
   "status": "proved",
   "theorems": [
    "encrypted_canonical",
    "encrypted_canonical_salt_exists"
   ],
   "note": "non-empty password: the encoder refuses the empty one although DecryptSeed accepts it"
  },
  {
   "property": "C06",
   "status": "proved",
   "theorems": [
    "decode_exact",
    "decode_never_panics"
   ],
   "note": ""
  },
  {
   "property": "C07",
   "status": "proved",
   "theorems": [
    "decode_case_insensitive",
    "version_case_insensitive"
   ],
   "note": "ASCII letters here; C77 covers the other runes"
  },
  {
   "property": "C08",
   "status": "proved",
   "theorems": [
    "one_wrong_word"
   ],
   "note": ""
  },
  {
   "property": "C09",
   "status": "proved",
   "theorems": [
    "two_words_swapped",
    "adjacent_swaps"
   ],
   "note": "any two positions past the first; 256 differences for one encrypted pair"
  },
  {
   "property": "C10",
   "status": "proved",
   "theorems": [
    "detection_depends_on_difference",
    "detection_independent_of_version",
    "blind_bits"
   ],
   "note": ""
  },
  {
   "property": "C11",
   "status": "proved",
   "theorems": [
    "parse_version_exact",
    "parse_version_results",
    "version_agrees_with_decode"
   ],
   "note": ""
  },
  {
   "property": "C12",
   "status": "proved",
   "theorems": [
    "decrypt_seed_exact",
    "seed_of_encrypted_refused",
    "decrypt_plaintext_ignores_password",
    "encrypted_roundtrip"
   ],
   "note": ""
  },
  {
   "property": "C13",
   "status": "proved",
   "theorems": [
    "conversion_preserves_key",
    "conversion_possible"
   ],
   "note": ""
  },
  {
   "property": "C14",
   "status": "proved",
   "theorems": [
    "recover_from_plaintext",
    "recover_from_encrypted"
   ],
   "note": ""
  },
  {
   "property": "C15",
   "status": "proved",
   "theorems": [
    "new_error_order",
    "new_succeeds",
    "new_bad_era"
   ],
   "note": ""
  },
  {
   "property": "C16",
   "status": "proved",
   "theorems": [
    "subsecond_irrelevant",
    "subsecond_same_key",
    "subsecond_last_second_refuted"
   ],
   "note": "The same key always results; in the very last second of the window only its first instant is accepted, shown by subsecond_last_second_refuted."
  },
  {
   "property": "C17",
   "status": "proved",
   "theorems": [
    "encode_no_panic_refuted",
    "encode_offset_panic_refuted",
    "encode_plaintext_panics_exactly",
    "encode_encrypted_panics_exactly",
    "encrypt_empty_password"
   ],
   "note": "literal claim refuted; exact panic sets proved"
  },
  {
   "property": "C18",
   "status": "proved",
   "theorems": [
    "new_seed_exact",
    "new_seed_errors",
    "seed_int_bytes_agree",
    "seed_int_bytes_agree_refuted",
    "encrypt_negative_seed_refuted"
   ],
   "note": "agreement refuted for negative integers"
  },
  {
   "property": "C19",
   "status": "proved",
   "theorems": [
    "generate_seed_exact",
    "generate_seed_bijective"
   ],
   "note": ""
  },
  {
   "property": "C20",
   "status": "proved",
   "theorems": [
    "salt_uniform",
    "encrypted_phrase_salt"
   ],
   "note": ""
  },
  {
   "property": "C21",
   "status": "proved",
   "theorems": [
    "bit_buffer_refines",
    "append_pop_leading",
    "append_pop_trailing"
   ],
   "note": ""
  },
  {
   "property": "C22",
   "status": "proved",
   "theorems": [
    "indices_roundtrip",
    "indices_roundtrip_back",
    "encode_indices_too_large",
    "decode_indices_refuses",
    "encode_indices_panics_exactly",
    "indices_count_refuted"
   ],
   "note": "refuted: the documented number of words for bit sizes within 11 of the greatest uint"
  },
  {
   "property": "C23",
   "status": "proved",
   "theorems": [
    "encode_indices_zeroes_argument",
    "encode_indices_keeps_argument_refuted"
   ],
   "note": "refuted: the argument is zeroed"
  },
  {
   "property": "C24",
   "status": "proved",
   "theorems": [
    "words_roundtrip",
    "encode_words_refuses",
    "decode_words_exact"
   ],
   "note": ""
  },
  {
   "property": "C25",
   "status": "proved",
   "theorems": [
    "labels_distinct",
    "keys_derived_by_label"
   ],
   "note": ""
  },
  {
   "property": "C26",
   "status": "proved",
   "theorems": [
    "keys_independent",
    "keys_derived_by_label"
   ],
   "note": ""
  },
  {
   "property": "C27",
   "status": "proved",
   "theorems": [
    "subkey_selection"
   ],
   "note": ""
  },
  {
   "property": "C28",
   "status": "proved",
   "theorems": [
    "unencrypted_deterministic",
    "recovered_export_identical",
    "recovered_encrypted_export_identical"
   ],
   "note": ""
  },
  {
   "property": "C29",
   "status": "proved",
   "theorems": [
    "user_id_forms",
    "whole_user_id_as_name"
   ],
   "note": ""
  },
  {
   "property": "C30",
   "status": "proved",
   "theorems": [
    "export_wellformed",
    "export_fails_only_without_randomness"
   ],
   "note": ""
  },
  {
   "property": "C31",
   "status": "proved",
   "theorems": [
    "subkey_order"
   ],
   "note": ""
  },
  {
   "property": "C32",
   "status": "proved",
   "theorems": [
    "subkey_export_has_stub",
    "subkey_export_hides_master"
   ],
   "note": ""
  },
  {
   "property": "C33",
   "status": "proved",
   "theorems": [
    "export_secrets"
   ],
   "note": "passwords up to 65011704 bytes, see C39 for longer ones"
  },
  {
   "property": "C34",
   "status": "proved",
   "theorems": [
    "export_signatures"
   ],
   "note": "for every verification function that accepts what Ed25519 signs"
  },
  {
   "property": "C35",
   "status": "proved",
   "theorems": [
    "export_roles",
    "bind_subkey_never_panics"
   ],
   "note": ""
  },
  {
   "property": "C36",
   "status": "proved",
   "theorems": [
    "expiry_exact",
    "no_expiry",
    "subsecond_ttl_refuted",
    "huge_ttl_refuted"
   ],
   "note": "agreement refuted below one second and from 2^32 s; exact between"
  },
  {
   "property": "C37",
   "status": "proved",
   "theorems": [
    "length_roundtrip",
    "length_shortest",
    "length_never_partial"
   ],
   "note": ""
  },
  {
   "property": "C38",
   "status": "proved",
   "theorems": [
    "mpi_roundtrip",
    "mpi_no_leading_zero",
    "checksum_is_sum",
    "mpi_too_long"
   ],
   "note": ""
  },
  {
   "property": "C39",
   "status": "proved",
   "theorems": [
    "s2k_is_rfc",
    "s2k_count_is_rfc",
    "s2k_long_truncates",
    "s2k_long_password_refuted"
   ],
   "note": ""
  },
  {
   "property": "C40",
   "status": "proved",
   "theorems": [
    "fingerprint_preimage",
    "fingerprint_commits",
    "fingerprint_collision"
   ],
   "note": ""
  },
  {
   "property": "C41",
   "status": "proved",
   "theorems": [
    "curve_secret"
   ],
   "note": ""
  },
  {
   "property": "C42",
   "status": "proved",
   "theorems": [
    "ttl_accepted",
    "ttl_refused",
    "ttl_exact",
    "ttl_overflow_refuted",
    "ttl_shorter_refuted"
   ],
   "note": "exact for products below 2^63 ns; the overflow case is refuted with witnesses"
  },
  {
   "property": "C43",
   "status": "proved",
   "theorems": [
    "only_empty",
    "only_parts",
    "only_accepted",
    "only_refused"
   ],
   "note": ""
  },
  {
   "property": "C44",
   "status": "proved",
   "theorems": [
    "index_refused",
    "index_exact",
    "index_option_refused",
    "index_option_exact",
    "number_exact",
    "index_option_integer",
    "leading_zero_refuted"
   ],
   "note": "Index above 65535: refused with the world unchanged. Otherwise whatever recover prints is the key of the decoded phrase at exactly the given indices. The same from the argument vector for decimal numbers; a leading zero makes the number octal (leading_zero_refuted)."
  },
  {
   "property": "C45",
   "status": "proved",
   "theorems": [
    "decodable_phrase_ok",
    "word_file_roundtrip",
    "word_file_exact",
    "word_file_unicode",
    "word_file_sound",
    "word_file_junk_refuted"
   ],
   "note": "the file may have text after a 64 KiB token: refuted that it holds the exact words"
  },
  {
   "property": "C46",
   "status": "proved",
   "theorems": [
    "save_keeps_existing",
    "save_success",
    "save_possible",
    "save_race_refuted",
    "generate_keeps_existing"
   ],
   "note": "refuted under a concurrent creation, as stated"
  },
  {
   "property": "C47",
   "status": "proved",
   "theorems": [
    "killed_save",
    "disk_full_save",
    "killed_save_outcomes"
   ],
   "note": ""
  },
  {
   "property": "C48",
   "status": "proved",
   "theorems": [
    "convert_output_ignored_refuted",
    "convert_writes_no_file_refuted",
    "convert_file_to_file_refuted",
    "convert_shows"
   ],
   "note": "the property is false of the code: refuted for every phrase and every pair of paths"
  },
  {
   "property": "C49",
   "status": "proved",
   "theorems": [
    "raw_entry_sound",
    "raw_entry_exact",
    "raw_entry_typed",
    "raw_entry_aborts"
   ],
   "note": ""
  },
  {
   "property": "C50",
   "status": "proved",
   "theorems": [
    "raw_entry_length",
    "left_arrow_rejected",
    "left_arrow_refuted"
   ],
   "note": "the property is false of the code; refuted for every session with one correction"
  },
  {
   "property": "C51",
   "status": "proved",
   "theorems": [
    "simple_exact",
    "simple_last_line",
    "simple_leaves_rest"
   ],
   "note": ""
  },
  {
   "property": "C52",
   "status": "proved",
   "theorems": [
    "prompt_one_result",
    "prompt_password_typed",
    "prompt_errors",
    "prompt_interruptible",
    "prompt_progress",
    "prompt_bounded",
    "prompt_uninterrupted",
    "prompt_chooses",
    "prompt_output",
    "prompt_clean_output_refuted"
   ],
   "note": ""
  },
  {
   "property": "C53",
   "status": "proved",
   "theorems": [
    "retry_first",
    "retry_exhausted",
    "retry_plain",
    "retry_sound",
    "input_typed"
   ],
   "note": ""
  },
  {
   "property": "C54",
   "status": "proved",
   "theorems": [
    "wrap_terminates",
    "wrap_refuted",
    "wrap_no_columns_refuted",
    "help_wide_enough",
    "help_narrow_refuted",
    "reminder_wide_enough",
    "reminder_narrow_refuted"
   ],
   "note": "terminates when the words fit; refuted otherwise"
  },
  {
   "property": "C55",
   "status": "proved",
   "theorems": [
    "dispatch_named",
    "commands",
    "dispatch_unknown",
    "dispatch_help",
    "command_help",
    "usage_at_most_once",
    "status_exact",
    "status_usage",
    "status_bad_flags",
    "help_topic_refuted"
   ],
   "note": "Terminals of at least 42 columns (narrower ones never finish the help text, see C54). \"help x\" exits 0 printing nothing (help_topic_refuted)."
  },
  {
   "property": "C56",
   "status": "proved",
   "theorems": [
    "generate_then_recover",
    "generate_then_recover_file",
    "generate_works"
   ],
   "note": "The write of the key is byte-for-byte the same; a password prompt can add newlines to standard output, see C52. generate_works: the hypotheses are met whenever the inputs of generate are in order."
  },
  {
   "property": "C57",
   "status": "proved",
   "theorems": [
    "export_randomness"
   ],
   "note": ""
  },
  {
   "property": "C58",
   "status": "proved",
   "theorems": [
    "reported_identity"
   ],
   "note": ""
  },
  {
   "property": "C59",
   "status": "proved",
   "theorems": [
    "public_packets",
    "fingerprint_v5_input"
   ],
   "note": ""
  },
  {
   "property": "C60",
   "status": "proved",
   "theorems": [
    "certification_content",
    "readme_ciphers_refuted"
   ],
   "note": "The cipher preferences of the README are refuted for every export."
  },
  {
   "property": "C61",
   "status": "proved",
   "theorems": [
    "readme_subkey_order_refuted"
   ],
   "note": "The property is false of the code; what holds in general is C31."
  },
  {
   "property": "C62",
   "status": "proved",
   "theorems": [
    "raw_entry_screen",
    "raw_entry_narrow_refuted"
   ],
   "note": "raw_entry_narrow_refuted: the condition that nothing reaches the last column cannot be dropped."
  },
  {
   "property": "C63",
   "status": "proved",
   "theorems": [
    "simple_entry_screen",
    "simple_entry_last_line_refuted"
   ],
   "note": "simple_entry_last_line_refuted: the condition that every line ends with Enter cannot be dropped."
  },
  {
   "property": "C64",
   "status": "proved",
   "theorems": [
    "phrase_shown"
   ],
   "note": ""
  },
  {
   "property": "C65",
   "status": "proved",
   "theorems": [
    "verbose_identity"
   ],
   "note": ""
  },
  {
   "property": "C66",
   "status": "proved",
   "theorems": [
    "armored_export",
    "armored_export_short"
   ],
   "note": "Armor is external code: armor_ok says an RFC 4880 reader (Spec/ArmorSpec.v) recovers what was encoded; Proofs/ArmorP.v proves it of an encoder."
  },
  {
   "property": "C67",
   "status": "proved",
   "theorems": [
    "recover_prints_key",
    "generate_prints_key",
    "recover_works"
   ],
   "note": ""
  },
  {
   "property": "C68",
   "status": "proved",
   "theorems": [
    "std_primitives",
    "std_encrypted_roundtrip",
    "std_recovery",
    "std_conversion",
    "std_exports"
   ],
   "note": ""
  },
  {
   "property": "C69",
   "status": "proved",
   "theorems": [
    "std_fingerprints"
   ],
   "note": "Vectors.v tests it on the fingerprints of mnemonikey_test.go."
  },
  {
   "property": "C70",
   "status": "proved",
   "theorems": [
    "generate_line",
    "recover_line",
    "convert_line",
    "verbose_line",
    "line_sorts",
    "help_line_shown",
    "wrong_line_refused",
    "help_word_shown"
   ],
   "note": ""
  },
  {
   "property": "C71",
   "status": "proved",
   "theorems": [
    "help_shows",
    "help_is_usage",
    "help_options",
    "help_unknown_size"
   ],
   "note": ""
  },
  {
   "property": "C72",
   "status": "proved",
   "theorems": [
    "examples_accepted",
    "example_refuted"
   ],
   "note": "Refuted for one example of convert; proved for all others."
  },
  {
   "property": "C73",
   "status": "proved",
   "theorems": [
    "ed25519_complete",
    "std_exports",
    "std_export_signatures"
   ],
   "note": ""
  },
  {
   "property": "C74",
   "status": "proved",
   "theorems": [
    "convert_sound",
    "convert_works",
    "convert_unconfirmed",
    "input_typed"
   ],
   "note": "convert shows the phrase only when it was not read from a file (C48 refutes the other case)."
  },
  {
   "property": "C75",
   "status": "proved",
   "theorems": [
    "std_runtime",
    "std_expiry",
    "std_generate_then_recover",
    "std_recover_prints_key",
    "std_generate_prints_key"
   ],
   "note": "That the Go packages behave as transcribed in Spec/Go*.v is trusted; uint32 of a float64 is that of amd64 for lifetimes of 2^32 s and more."
  },
  {
   "property": "C76",
   "status": "proved",
   "theorems": [
    "std_subkey_order",
    "std_all_orders"
   ],
   "note": ""
  },
  {
   "property": "C77",
   "status": "proved",
   "theorems": [
    "std_known_word",
    "spelled_once",
    "std_decode_spellings"
   ],
   "note": ""
  },
  {
   "property": "C78",
   "status": "proved",
   "theorems": [
    "std_trim_exact",
    "std_line_word"
   ],
   "note": ""
  },
  {
   "property": "C79",
   "status": "proved",
   "theorems": [
    "trace_erases",
    "generate_stderr",
    "recover_stderr",
    "convert_stderr"
   ],
   "note": "Texts of the operating system, and here those of fmt %q and of times, are parameters (C89 and C90 treat the latter). Panics (stack traces) are outside; C91 shows there are none. Standard input is all typed in advance."
  },
  {
   "property": "C80",
   "status": "proved",
   "theorems": [
    "generate_secret",
    "recover_secret"
   ],
   "note": "Typed passwords up to an injective renaming; recover with word files."
  },
  {
   "property": "C81",
   "status": "proved",
   "theorems": [
    "wrong_line_stderr",
    "wrong_root_stderr",
    "help_stderr",
    "root_help_stderr",
    "root_stderr"
   ],
   "note": ""
  },
  {
   "property": "C82",
   "status": "proved",
   "theorems": [
    "verbose_harmless"
   ],
   "note": ""
  },
  {
   "property": "C83",
   "status": "proved",
   "theorems": [
    "simple_questions",
    "simple_screen_questions"
   ],
   "note": ""
  },
  {
   "property": "C84",
   "status": "proved",
   "theorems": [
    "password_unseen",
    "password_unseen_once",
    "one_prompt_commands",
    "password_unseen_refuted"
   ],
   "note": "Keys count as echoed or not when they are typed."
  },
  {
   "property": "C85",
   "status": "proved",
   "theorems": [
    "terminal_restored",
    "terminal_restored_between",
    "terminal_restored_refuted"
   ],
   "note": "Calls that change the attributes succeed."
  },
  {
   "property": "C86",
   "status": "proved",
   "theorems": [
    "schedule_passwords",
    "schedule_output",
    "schedule_ends",
    "schedule_exists",
    "generate_schedules",
    "recover_schedules",
    "convert_schedules",
    "output_refuted"
   ],
   "note": "A schedule is a list of steps as in CliTerm.v; the Go scheduler is otherwise arbitrary."
  },
  {
   "property": "C87",
   "status": "proved",
   "theorems": [
    "save_private",
    "seen_private",
    "save_seen_last",
    "save_refuses_disk",
    "save_accepts_disk",
    "save_private_refuted",
    "save_race_link_refuted",
    "save_here_refuted"
   ],
   "note": "A link holds the whole path it leads to; the process is not root and owns the files it may write."
  },
  {
   "property": "C88",
   "status": "proved",
   "theorems": [
    "save_disk_view",
    "generate_private"
   ],
   "note": ""
  },
  {
   "property": "C89",
   "status": "proved",
   "theorems": [
    "quote_literal",
    "literal_exact",
    "quote_injective",
    "quote_shows",
    "verbose_reads"
   ],
   "note": "%q of Go 1.20; which characters from U+0100 on are printable is a parameter."
  },
  {
   "property": "C90",
   "status": "proved",
   "theorems": [
    "rfc3339_reads",
    "reads_time_exact",
    "epoch_dates",
    "verbose_reads"
   ],
   "note": ""
  },
  {
   "property": "C91",
   "status": "proved",
   "theorems": [
    "program_never_crashes",
    "program_ends",
    "trace_ends",
    "turns_enough",
    "loops_end",
    "std_program_ends",
    "narrow_terminal_refuted"
   ],
   "note": ""
  },
  {
   "property": "C92",
   "status": "proved",
   "theorems": [
    "sharing_invisible",
    "only_new_seed_shares",
    "memory_kept",
    "buffer_memory",
    "shared_seed_refuted"
   ],
   "note": "The functions with addresses are BigHeap.v; key material is bytes and does not hold addresses."
  },
  {
   "property": "C93",
   "status": "proved",
   "theorems": [
    "conversions_keep",
    "conversions_recover",
    "generate_convert_recover"
   ],
   "note": "A session that shows no phrase is not a step: it ended with an error, or read a word file and was refused at saving (convert_writes_no_file_refuted)."
  },
  {
   "property": "C94",
   "status": "proved",
   "theorems": [
    "program_recovers",
    "program_recovers_file",
    "status_usage"
   ],
   "note": "Same restriction on what counts as a conversion as in C93."
  },
  {
   "property": "C95",
   "status": "proved",
   "theorems": [
    "slices_as_values",
    "std_slices_as_values",
    "capacity_invisible",
    "calls_keep_memory",
    "package_variables_kept",
    "sharing_only_by_sign",
    "export_as_for_values",
    "sign_keeps_fingerprint_refuted",
    "private_is_shared_refuted",
    "public_is_shared_refuted"
   ],
   "note": "The functions with slices in memory are SliceHeap.v; fields of structs are not reassigned, and slices of subpackets are lists."
  },
  {
   "property": "C96",
   "status": "proved",
   "theorems": [
    "panic_table",
    "proper_programs_never_panic",
    "plaintext_as_version",
    "encrypted_as_version",
    "constructed_as_values",
    "sealed_phrase_refuted",
    "zero_values_seen",
    "changed_version_seen"
   ],
   "note": "The functions with pointers that may be nil are ZeroValues.v; structures are built by the package, new or a literal with Version only."
  },
  {
   "property": "C97",
   "status": "proved",
   "theorems": [
    "goroutines_race_free",
    "goroutines_as_alone",
    "shared_memory_kept",
    "goroutines_finish",
    "process_ends_by_own_panic",
    "goroutines_as_values",
    "writing_to_shared_key_refuted"
   ],
   "note": "The code of SliceHeap.v is a tree of reads, writes, new arrays and random bytes; one step reads or writes one slice. Goroutines do not hand objects to each other and do not synchronise."
  },
  {
   "property": "C98",
   "status": "proved",
   "theorems": [
    "call_table",
    "made_fields",
    "made_keys_never_panic",
    "unread_fields_unseen",
    "keys_stay_as_made",
    "sets_as_values",
    "signatures_as_values",
    "certifications_as_values",
    "sets_as_assigned",
    "certifications_as_assigned",
    "creation_assigned_keeps_expiry_refuted",
    "private_assigned_certifies_refuted",
    "default_kdf_keeps_keys_refuted"
   ],
   "note": "Byte slices are values here (C95 has them in memory). The three false claims are refuted with witnesses."
  },
  {
   "property": "C99",
   "status": "proved",
   "theorems": [
    "variables_unassigned",
    "new_by_variables",
    "phrases_by_variables",
    "recovery_by_variables",
    "moved_window",
    "older_than_epoch_panics",
    "kdf_by_variables",
    "exports_by_variables",
    "later_maximum_recovers_refuted",
    "earlier_epoch_encodes_refuted",
    "changed_epoch_recovers_refuted"
   ],
   "note": "Each function takes the values of the variables at its call. The three false claims are refuted with witnesses."
  },
  {
   "property": "C100",
   "status": "proved",
   "theorems": [
    "raw_typing_shown",
    "raw_typing_ends"
   ],
   "note": "The two lines after each key are given by Spec/TypingSpec.v."
  },
  {
   "property": "C101",
   "status": "proved",
   "theorems": [
    "root_goroutines_race_free",
    "root_goroutines_as_alone",
    "root_goroutines_finish",
    "root_goroutines_as_values",
    "encoding_shared_integer_refuted",
    "encoding_seed_integer_refuted"
   ],
   "note": "The code of BigHeap.v is a tree of reads, writes and new integers; one step reads or writes one integer. Goroutines do not hand objects to each other and do not synchronise."
  },
  {
   "property": "C102",
   "status": "proved",
   "theorems": [
    "generate_draws",
    "generate_without_entropy",
    "same_phrase_same_entropy",
    "generate_works_any",
    "recover_draws",
    "convert_draws"
   ],
   "note": "Random bytes, standard input and files are lists of bytes; reading them does not fail before their end."
  },
  {
   "property": "C103",
   "status": "proved",
   "theorems": [
    "exports_same_keys",
    "recover_any_protection",
    "saved_phrase_read"
   ],
   "note": "Passwords up to 65011704 bytes (C39). unlock is the RFC 4880 reader of PgpSpec.v."
  },
  {
   "property": "C104",
   "status": "proved",
   "theorems": [
    "tale_true",
    "encode_shows_now",
    "signature_kept",
    "unhashed_unprotected"
   ],
   "note": "Bodies of subpackets are values and slices of pointers whole arrays (SubHeap.v); C95 has the sharing of bytes. Verification is for SHA-256, fingerprints of 20 bytes and subpackets of up to 190 bytes, 1000 together."
  },
  {
   "property": "C105",
   "status": "proved",
   "theorems": [
    "program_recovers_twice",
    "program_recovers_keys"
   ],
   "note": "Passwords of the keys up to 65011704 bytes (C39), user IDs below 2^31 bytes. Same restriction on what counts as a conversion as in C93."
  },
  {
   "property": "C106",
   "status": "proved",
   "theorems": [
    "simple_in_pieces",
    "pieces_do_not_matter",
    "typed_ahead_kept",
    "read_ahead_refuted"
   ],
   "note": "The scanner of Go 1.20 is modelled from its source as remembered, which is not in the sandbox. Reads fail only at the end of the input."
  },
  {
   "property": "C107",
   "status": "proved",
   "theorems": [
    "typing_time_keeps_words",
    "typing_ahead_words",
    "typing_ahead_read",
    "patient_shows",
    "pasted_phrase_wiped_refuted",
    "pasted_small_window_refuted"
   ],
   "note": "Lines are echoed as a whole and end with Enter. The two refuted theorems are for the word list and phrase of the toy environment."
  }
 ]
}