{
 "claims": [
  {
   "property": "C01",
   "status": "proved",
   "theorems": [
    "C01_round_trip",
    "C01_stream_round_trip"
   ],
   "note": "Buffer and stream forms; automatically chosen and explicit parameters."
  },
  {
   "property": "C02",
   "status": "proved",
   "theorems": [
    "C02_format",
    "C02_succeeds",
    "C02_auto_succeeds"
   ],
   "note": "Exact file contents, and success whenever no system call fails."
  },
  {
   "property": "C03",
   "status": "proved",
   "theorems": [
    "C03_stream_equals_buffer"
   ],
   "note": "Every read schedule."
  },
  {
   "property": "C04",
   "status": "proved",
   "theorems": [
    "C04_stream_equals_buffer",
    "C04_truncated",
    "C04_truncated_refuted"
   ],
   "note": "Equality for every read schedule; inputs of 96 to 127 bytes get different codes (EINVAL / the setup codes) in the two forms, which the refuted part shows on a concrete file."
  },
  {
   "property": "C05",
   "status": "proved",
   "theorems": [
    "C05_accepts_iff",
    "C05_stream_accepts_iff"
   ],
   "note": "Acceptance if and only if the input is a well-formed file of the format for that passphrase."
  },
  {
   "property": "C06",
   "status": "proved",
   "theorems": [
    "C06_status_buffer",
    "C06_status_stream",
    "C06_any_environment_buffer",
    "C06_any_environment_stream"
   ],
   "note": "Exact status in a failure-free environment, soundness of each code in any environment."
  },
  {
   "property": "C07",
   "status": "proved",
   "theorems": [
    "C07_forgery",
    "C07_forgery_stream",
    "C07_program",
    "C07_tag_change_rejected"
   ],
   "note": ""
  },
  {
   "property": "C08",
   "status": "proved",
   "theorems": [
    "C08_buffer",
    "C08_stream",
    "C08_buffer_refuted"
   ],
   "note": "What is released before the final check; the unconditional form is refuted."
  },
  {
   "property": "C09",
   "status": "proved",
   "theorems": [
    "C09_has_message",
    "C09_distinct_messages",
    "C09_codes",
    "C09_no_error_to_print",
    "C09_encrypt_buffer",
    "C09_encrypt_stream",
    "C09_decrypt_buffer",
    "C09_decrypt_stream",
    "C09_info"
   ],
   "note": "Every code of every entry point has a message on stderr; distinct codes have distinct messages."
  },
  {
   "property": "C10",
   "status": "proved",
   "theorems": [
    "C10_output_after_verification",
    "C10_bad_header_untouched"
   ],
   "note": "Every command line, world and fault in decrypt mode: the output is neither opened nor written before the header has been verified with the passphrase."
  },
  {
   "property": "C11",
   "status": "proved",
   "theorems": [
    "C11_status",
    "C11_diagnosed",
    "C11_attributed",
    "C11_close_refuted"
   ],
   "note": "Every command line and world. Status 0 means the operation completed; any other status is 1 and comes with a diagnostic, which names the file it concerns. That the output arrived is refuted: a failing fclose of the output leaves status 0."
  },
  {
   "property": "C12",
   "status": "proved",
   "theorems": [
    "C12_encrypt",
    "C12_decrypt"
   ],
   "note": "Every fault point and read schedule."
  },
  {
   "property": "C13",
   "status": "proved",
   "theorems": [
    "C13_chosen_parameters_valid",
    "C13_total",
    "C13_nan_refuted"
   ],
   "note": "All budgets, speeds and time limits that are numbers; a NaN time limit is undefined behaviour (refuted part). Doubles are IEEE binary64 via Flocq."
  },
  {
   "property": "C14",
   "status": "proved",
   "theorems": [
    "C14_chosen_parameters_respect_limits"
   ],
   "note": ""
  },
  {
   "property": "C15",
   "status": "proved",
   "theorems": [
    "C15_chosen_parameters_maximal",
    "C15_encrypt_buffer",
    "C15_encrypt_stream"
   ],
   "note": "The last two state C13-C15 for the header written by a successful encryption."
  },
  {
   "property": "C16",
   "status": "proved",
   "theorems": [
    "C16_limit_checks",
    "C16_invalid",
    "C16_force",
    "C16_nan_refuted"
   ],
   "note": "Memory exact; CPU exact up to the factor 1+2^-51 of three double divisions. NaN time limit disables the check (refuted part)."
  },
  {
   "property": "C17",
   "status": "proved",
   "theorems": [
    "C17_decryptable",
    "C17_same_environment",
    "C17_below_floor_refuted"
   ],
   "note": "Holds above the 2^15 floor; proved to fail always below it."
  },
  {
   "property": "C18",
   "status": "proved",
   "theorems": [
    "C18_memory_budget",
    "C18_defined",
    "C18_defined_refuted"
   ],
   "note": ""
  },
  {
   "property": "C19",
   "status": "proved",
   "theorems": [
    "C19_crypto_scrypt",
    "C19_large_p",
    "C19_large_p_not_rfc"
   ],
   "note": "RFC 7914 for every valid parameter set with p <= 2^25; for larger p the exact (non-RFC) function computed is characterised: the uint32_t product i*128 wraps."
  },
  {
   "property": "C20",
   "status": "proved",
   "theorems": [
    "C20_rejects",
    "C20_accepts",
    "C20_sizes"
   ],
   "note": "32- and 64-bit size_t; all allocator behaviours."
  },
  {
   "property": "C21",
   "status": "proved",
   "theorems": [
    "C21_sse2_equals_generic"
   ],
   "note": "Relative to the vendor semantics of the SSE2 intrinsics."
  },
  {
   "property": "C22",
   "status": "proved",
   "theorems": [
    "C22_reference_agrees",
    "C22_reference_N1",
    "C22_reference_zero_refuted"
   ],
   "note": ""
  },
  {
   "property": "C23",
   "status": "proved",
   "theorems": [
    "C23_selected_routine_passed",
    "C23_broken_sse2_never_used",
    "C23_choice_stable",
    "C23_never_aborts",
    "C23_no_memory_aborts"
   ],
   "note": "Arbitrary (broken) routines for the safety part; real routines for never_aborts."
  },
  {
   "property": "C24",
   "status": "proved",
   "theorems": [
    "C24_sha256_streaming",
    "C24_sha256_buf"
   ],
   "note": "For every transform implementation, initial context contents and chunking."
  },
  {
   "property": "C25",
   "status": "proved",
   "theorems": [
    "C25_hmac_streaming",
    "C25_hmac_buf"
   ],
   "note": "All key lengths, all chunkings."
  },
  {
   "property": "C26",
   "status": "proved",
   "theorems": [
    "C26_pbkdf2",
    "C26_pbkdf2_too_long"
   ],
   "note": "All iteration counts and output lengths."
  },
  {
   "property": "C27",
   "status": "proved",
   "theorems": [
    "C27_transforms_agree"
   ],
   "note": "Relative to the vendor semantics of the intrinsics in M_simd.v / M_sha256_hw.v."
  },
  {
   "property": "C28",
   "status": "proved",
   "theorems": [
    "C28_stream",
    "C28_buf",
    "C28_involutive",
    "C28_keystream"
   ],
   "note": "All call splittings, software and hardware block functions; relative to OpenSSL AES = FIPS-197."
  },
  {
   "property": "C29",
   "status": "proved",
   "theorems": [
    "C29_hw_equals_sw"
   ],
   "note": "Relative to the vendor semantics of the AES instructions in M_aes_hw.v."
  },
  {
   "property": "C30",
   "status": "proved",
   "theorems": [
    "C30_aesni",
    "C30_arm",
    "C30_round_keys",
    "C30_bad_length"
   ],
   "note": "AES-NI and ARM; 128- and 256-bit keys."
  },
  {
   "property": "C31",
   "status": "proved",
   "theorems": [
    "C31_verify_bytes",
    "C31_data_independent"
   ],
   "note": ""
  },
  {
   "property": "C32",
   "status": "proved",
   "theorems": [
    "C32_be16",
    "C32_be32",
    "C32_be64",
    "C32_le16",
    "C32_le32",
    "C32_le64"
   ],
   "note": "Portable byte-shift implementations."
  },
  {
   "property": "C33",
   "status": "proved",
   "theorems": [
    "C33_hmac_drbg",
    "C33_fails_only_without_entropy",
    "C33_no_unseeded_output",
    "C33_succeeds"
   ],
   "note": "All call histories, all operating-system and RDRAND behaviours."
  },
  {
   "property": "C34",
   "status": "proved",
   "theorems": [
    "C34_success",
    "C34_total",
    "C34_released"
   ],
   "note": "All read/close schedules."
  },
  {
   "property": "C35",
   "status": "proved",
   "theorems": [
    "C35_humansize"
   ],
   "note": ""
  },
  {
   "property": "C36",
   "status": "proved",
   "theorems": [
    "C36_humansize_parse"
   ],
   "note": ""
  },
  {
   "property": "C37",
   "status": "proved",
   "theorems": [
    "C37_signed",
    "C37_unsigned",
    "C37_unsigned_exact",
    "C37_unsigned_range",
    "C37_unsigned_refuted",
    "C37_unsigned_errno",
    "C37_not_a_number",
    "C37_nobounds",
    "C37_float",
    "C37_float_refuted"
   ],
   "note": "Every string, range and base; strtod is a parameter. The documented condition is refuted for negative text (unsigned) and NaN (floating point)."
  },
  {
   "property": "C38",
   "status": "proved",
   "theorems": [
    "C38_parse",
    "C38_unambiguous",
    "C38_registered_valid"
   ],
   "note": "Every option table and argument vector."
  },
  {
   "property": "C39",
   "status": "proved",
   "theorems": [
    "C39_validation",
    "C39_no_mode",
    "C39_determined",
    "C39_operation",
    "C39_rejects",
    "C39_ranges"
   ],
   "note": "Every argument vector. strtod is a parameter."
  },
  {
   "property": "C40",
   "status": "proved",
   "theorems": [
    "C40_parse",
    "C40_env",
    "C40_source"
   ],
   "note": "Every argument string; every environment for the dispatch."
  },
  {
   "property": "C41",
   "status": "proved",
   "theorems": [
    "C41_total",
    "C41_confirmed",
    "C41_once",
    "C41_twice",
    "C41_signals",
    "C41_wiped",
    "C41_long_line_refuted",
    "C41_nul_refuted",
    "C41_other_signal_refuted"
   ],
   "note": "Every input stream and every arrival schedule of signals. 'Entered identically twice' is refuted for lines of 2047 bytes or more and for input with NUL; signals outside the caught set can find echo off."
  },
  {
   "property": "C42",
   "status": "proved",
   "theorems": [
    "C42_file",
    "C42_text",
    "C42_faults",
    "C42_cr_refuted",
    "C42_error_refuted"
   ],
   "note": "Every file content and every stream. The documented treatment of CR is refuted; a read error after the first line is taken for end of file."
  },
  {
   "property": "C43",
   "status": "proved",
   "theorems": [
    "C43_buffer_encrypt",
    "C43_buffer_decrypt",
    "C43_stream_encrypt",
    "C43_stream_decrypt",
    "C43_program",
    "C43_write_error_refuted"
   ],
   "note": "Every path except write errors of the stream forms, where the expanded key is left behind (refuted part)."
  },
  {
   "property": "C44",
   "status": "proved",
   "theorems": [
    "C44_info",
    "C44_errors",
    "C44_only_first_bytes",
    "C44_shift_refuted",
    "C44_wrap_refuted"
   ],
   "note": "Text of info/verbose output; logN >= 64 shifts and wrapped products are the refuted part."
  },
  {
   "property": "C45",
   "status": "proved",
   "theorems": [
    "C45_terminates",
    "C45_estimate"
   ],
   "note": "Clock resolution positive, fewer than 2^54 iterations."
  },
  {
   "property": "C46",
   "status": "proved",
   "theorems": [
    "C46_same_key_block",
    "C46_trailing_zeros_refuted",
    "C46_digest_refuted",
    "C46_key_block",
    "C46_distinct"
   ],
   "note": "Exact equivalence of passphrases under HMAC key blocks; distinct key blocks."
  },
  {
   "property": "C47",
   "status": "proved",
   "theorems": [
    "C47_invalid",
    "C47_valid",
    "C47_never_limited",
    "C47_text"
   ],
   "note": "Every explicit parameter set; warnings characterised exactly (memory) / up to 1+2^-51 (time)."
  },
  {
   "property": "C48",
   "status": "proved",
   "theorems": [
    "C48_sha_selected",
    "C48_aes_selected",
    "C48_aesctr_consistent",
    "C48_stable",
    "C48_warnings",
    "C48_correct_machine",
    "C48_detection",
    "C48_detection_cached"
   ],
   "note": "Every history of uses on a machine whose detection answers and routines may change at every use."
  },
  {
   "property": "C49",
   "status": "proved",
   "theorems": [
    "C49_align_ptr",
    "C49_round_keys",
    "C49_align64"
   ],
   "note": "Every address, alignment and element count."
  },
  {
   "property": "C50",
   "status": "proved",
   "theorems": [
    "C50_step",
    "C50_history",
    "C50_defined",
    "C50_double_free",
    "C50_failed_prep",
    "C50_one_call"
   ],
   "note": ""
  },
  {
   "property": "C51",
   "status": "proved",
   "theorems": [
    "C51_decrypts",
    "C51_round_trip"
   ],
   "note": "Every input, passphrase, command line and world in which the second run meets no failure."
  },
  {
   "property": "C52",
   "status": "proved",
   "theorems": [
    "C52_defined",
    "C52_dec_explicit_refuted",
    "C52_nan_memory_refuted",
    "C52_nan_time_refuted",
    "C52_info_refuted"
   ],
   "note": "Every command line, input and fault, given plausible clock readings and memory for the self-test and for messages (otherwise the code calls abort() or prints NULL). The four exceptions are refuted with concrete runs."
  },
  {
   "property": "C53",
   "status": "proved",
   "theorems": [
    "C53_erased",
    "C53_memzero"
   ],
   "note": "Every command line, world and fault. That the compiler keeps the stores is trusted."
  },
  {
   "property": "C54",
   "status": "proved",
   "theorems": [
    "C54_in_place",
    "C54_same_buffer",
    "C54_overlap_refuted"
   ],
   "note": "Every memory, placement and sequence of calls up to 2^64 bytes; all three code paths."
  },
  {
   "property": "C55",
   "status": "proved",
   "theorems": [
    "C55_memory_returned",
    "C55_reference",
    "C55_same_function"
   ],
   "note": "Every parameter set, build configuration and fault; both implementations."
  },
  {
   "property": "C56",
   "status": "proved",
   "theorems": [
    "C56_dialogue",
    "C56_echo",
    "C56_program"
   ],
   "note": "Every input stream, terminal and command line."
  },
  {
   "property": "C57",
   "status": "proved",
   "theorems": [
    "C57_choice",
    "C57_check",
    "C57_decrypt_buffer",
    "C57_decrypt_stream"
   ],
   "note": "Every pair of limits; doubles are Flocq binary64."
  },
  {
   "property": "C58",
   "status": "proved",
   "theorems": [
    "C58_encrypt_buffer",
    "C58_decrypt_buffer",
    "C58_encrypt_stream",
    "C58_prepare",
    "C58_decrypt_stream",
    "C58_program",
    "C58_info"
   ],
   "note": "Every call, command line and world. Needs memory for the message text, which only a verbose run uses."
  },
  {
   "property": "C59",
   "status": "proved",
   "theorems": [
    "C59_status_buffer",
    "C59_status_stream",
    "C59_force_buffer",
    "C59_force_stream",
    "judges_within",
    "judges_ok"
   ],
   "note": "Every input and limits in which no facility fails; the force theorems need no such assumption on the unforced run."
  },
  {
   "property": "C60",
   "status": "proved",
   "theorems": [
    "C60_encrypts",
    "C60_decrypts",
    "C60_round_trip",
    "C60_everyday"
   ],
   "note": "Every world without failures; C60_everyday assumes at least 110 operations per second and a slow-down of at most 60."
  },
  {
   "property": "C61",
   "status": "proved",
   "theorems": [
    "C61_encrypt_buffer",
    "C61_encrypt_stream",
    "C61_decrypt_buffer",
    "C61_prepare",
    "C61_decrypt_stream",
    "C61_program_quiet",
    "C61_program_enc",
    "C61_program_dec"
   ],
   "note": "Every call. The figures are those of the standard if they fit 64 bits (otherwise the C code shows them modulo 2^64). printf of %.1f is a parameter."
  },
  {
   "property": "C62",
   "status": "proved",
   "theorems": [
    "C62_truncated_buffer",
    "C62_truncated_stream",
    "C62_written",
    "C62_interrupted"
   ],
   "note": "Every crash point. That a truncated file never ends in a valid tag is a cryptographic assumption; the theorems name the event (lucky_tag) instead of assuming it away."
  },
  {
   "property": "C63",
   "status": "proved",
   "theorems": [
    "C63_salts",
    "C63_disjoint"
   ],
   "note": "Every history starting with an uninstantiated generator. That distinct pieces of generator output differ is a cryptographic assumption and not claimed."
  },
  {
   "property": "C64",
   "status": "proved",
   "theorems": [
    "C64_harmless",
    "C64_report",
    "C64_status",
    "C64_only_parameters"
   ],
   "note": "Every run that ends normally; the headers for which info has undefined behaviour or shows wrapped numbers are those of C44_shift_refuted and C44_wrap_refuted."
  },
  {
   "property": "C65",
   "status": "proved",
   "theorems": [
    "C65_dispatch",
    "C65_rejects",
    "C65_main"
   ],
   "note": "The grammar is SpecGetopt (C38). The switch is given by its line numbers and labels; jumping (setjmp/longjmp or computed goto) is modelled as the next turn of the initialisation loop. Fall-through between the statements behind two labels belongs to the caller and is not modelled."
  },
  {
   "property": "C66",
   "status": "proved",
   "theorems": [
    "C66_messages",
    "C66_determined"
   ],
   "note": "Formatting is an arbitrary C string; vsnprintf for syslog is assumed not to fail, since its result is not looked at by the code. Locking of stderr between threads and DEBUG builds (warnline) are not modelled."
  },
  {
   "property": "C67",
   "status": "proved",
   "theorems": [
    "C67_asprintf",
    "C67_humansize"
   ],
   "note": "vsnprintf is modelled by its specification (ISO C 7.21.6.12), each of the two calls may fail."
  },
  {
   "property": "C68",
   "status": "proved",
   "theorems": [
    "C68_sha_stream",
    "C68_sha_buf",
    "C68_hmac_stream",
    "C68_hmac_buf",
    "C68_pbkdf2",
    "C68_no_trace"
   ],
   "note": "A second model of sha256.c (M_sha256_mem) in which automatic arrays are memory passed along, overlaps included; registers and spills by the compiler are outside the model."
  },
  {
   "property": "C69",
   "status": "proved",
   "theorems": [
    "C69_no_trace",
    "C69_blank",
    "C69_unused",
    "C69_history"
   ],
   "note": "The static state (Key, V) itself stays, as it must. Each local is accounted for as its function leaves it; insecure_memzero is taken to reach memory."
  },
  {
   "property": "C70",
   "status": "proved",
   "theorems": [
    "C70_enc_buf",
    "C70_dec_buf",
    "C70_enc_file",
    "C70_dec_file"
   ],
   "note": "The functions with their local arrays and contexts as memory (M_scryptenc_mem) have exactly the outcomes of the model of C01-C12. The heap objects (AES keys, streams, cookie) are C43 and C50. insecure_memzero is taken to reach memory; registers and compiler copies are not modelled."
  },
  {
   "property": "C71",
   "status": "proved",
   "theorems": [
    "C71_enc",
    "C71_enc_in_place",
    "C71_dec_apart",
    "C71_dec_over",
    "C71_dec_in_place"
   ],
   "note": "Model M_scryptenc_ovl: one memory, pointers as offsets; proved equal to M_scryptenc where the theorems say so. That decryption in place is in effect refused follows unless HMAC-SHA256 under the file's key collides. The remaining placements: C72, C73."
  },
  {
   "property": "C72",
   "status": "proved",
   "theorems": [
    "C72_enc_onto_itself",
    "C72_decrypts_to_ruin"
   ],
   "note": "A limit of the interface a caller must know: neither scryptenc.h nor the code rules this call out. Model M_scryptenc_ovl (C71)."
  },
  {
   "property": "C73",
   "status": "proved",
   "theorems": [
    "C73_stream_anywhere",
    "C73_enc_anywhere",
    "C73_enc_decrypts",
    "C73_dec_anywhere",
    "C73_seen_apart"
   ],
   "note": "Generalises C54, C71 and C72 to the placements they leave out; C54 states the exact result for the documented placements."
  },
  {
   "property": "C74",
   "status": "proved",
   "theorems": [
    "C74_buffer",
    "C74_buffer_exact",
    "C74_accepted",
    "C74_stream",
    "C74_stream_exact",
    "C74_program"
   ],
   "note": "Interchangeable passphrases (C46) are a case of equal tags."
  },
  {
   "property": "C75",
   "status": "proved",
   "theorems": [
    "C75_enc_lost",
    "C75_enc_empty",
    "C75_enc_succeeds",
    "C75_enc_endless",
    "C75_dec_refused",
    "C75_dec_unverified",
    "C75_dec_small",
    "C75_dec_small_succeeds",
    "C75_dec_large",
    "C75_dec_large_lost"
   ],
   "note": "One inode, two FILEs (M_samefile): opening the output truncates what the input has not read ahead. No read, write, open or close error is modelled there."
  }
 ]
}