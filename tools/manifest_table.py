c("C24", "proved", "C24_sha256_streaming C24_sha256_buf", "For every transform implementation, initial context contents and chunking.")
c("C25", "proved", "C25_hmac_streaming C25_hmac_buf", "All key lengths, all chunkings.")
c("C26", "proved", "C26_pbkdf2 C26_pbkdf2_too_long", "All iteration counts and output lengths.")
c("C27", "proved", "C27_transforms_agree", "Relative to the vendor semantics of the intrinsics in M_simd.v / M_sha256_hw.v.")
c("C32", "proved", "C32_be16 C32_be32 C32_be64 C32_le16 C32_le32 C32_le64", "Portable byte-shift implementations.")
c("C19", "proved", "C19_crypto_scrypt C19_large_p C19_large_p_not_rfc", "RFC 7914 for every valid parameter set with p <= 2^25; for larger p the exact (non-RFC) function computed is characterised: the uint32_t product i*128 wraps.")
c("C20", "proved", "C20_rejects C20_accepts C20_sizes", "32- and 64-bit size_t; all allocator behaviours.")
c("C21", "proved", "C21_sse2_equals_generic", "Relative to the vendor semantics of the SSE2 intrinsics.")
c("C22", "proved", "C22_reference_agrees C22_reference_N1 C22_reference_zero_refuted", "")
c("C23", "proved", "C23_selected_routine_passed C23_broken_sse2_never_used C23_choice_stable C23_never_aborts C23_no_memory_aborts", "Arbitrary (broken) routines for the safety part; real routines for never_aborts.")
c("C28", "proved", "C28_stream C28_buf C28_involutive C28_keystream", "All call splittings, software and hardware block functions; relative to OpenSSL AES = FIPS-197.")
c("C29", "proved", "C29_hw_equals_sw", "Relative to the vendor semantics of the AES instructions in M_aes_hw.v.")
c("C30", "proved", "C30_aesni C30_arm C30_round_keys C30_bad_length", "AES-NI and ARM; 128- and 256-bit keys.")
c("C31", "proved", "C31_verify_bytes C31_data_independent", "")
c("C33", "proved", "C33_hmac_drbg C33_fails_only_without_entropy C33_no_unseeded_output C33_succeeds", "All call histories, all operating-system and RDRAND behaviours.")
c("C34", "proved", "C34_success C34_total C34_released", "All read/close schedules.")
c("C13", "proved", "C13_chosen_parameters_valid C13_total C13_nan_refuted", "All budgets, speeds and time limits that are numbers; a NaN time limit is undefined behaviour (refuted part). Doubles are IEEE binary64 via Flocq.")
c("C14", "proved", "C14_chosen_parameters_respect_limits", "")
c("C15", "proved", "C15_chosen_parameters_maximal C15_encrypt_buffer C15_encrypt_stream", "The last two state C13-C15 for the header written by a successful encryption.")
c("C16", "proved", "C16_limit_checks C16_invalid C16_force C16_nan_refuted", "Memory exact; CPU exact up to the factor 1+2^-51 of three double divisions. NaN time limit disables the check (refuted part).")
c("C17", "proved", "C17_decryptable C17_same_environment C17_below_floor_refuted", "Holds above the 2^15 floor; proved to fail always below it.")
c("C18", "proved", "C18_memory_budget C18_defined C18_defined_refuted", "")
c("C45", "proved", "C45_terminates C45_estimate", "Clock resolution positive, fewer than 2^54 iterations.")
c("C35", "proved", "C35_humansize", "")
c("C36", "proved", "C36_humansize_parse", "")
c("C01", "proved", "C01_round_trip C01_stream_round_trip", "Buffer and stream forms; automatically chosen and explicit parameters.")
c("C02", "proved", "C02_format C02_succeeds C02_auto_succeeds", "Exact file contents, and success whenever no system call fails.")
c("C03", "proved", "C03_stream_equals_buffer", "Every read schedule.")
c("C04", "proved", "C04_stream_equals_buffer C04_truncated C04_truncated_refuted", "Equality for every read schedule; inputs of 96 to 127 bytes get different codes (EINVAL / the setup codes) in the two forms, which the refuted part shows on a concrete file.")
c("C05", "proved", "C05_accepts_iff C05_stream_accepts_iff", "Acceptance if and only if the input is a well-formed file of the format for that passphrase.")
c("C06", "proved", "C06_status_buffer C06_status_stream C06_any_environment_buffer C06_any_environment_stream", "Exact status in a failure-free environment, soundness of each code in any environment.")
c("C07", "proved", "C07_forgery C07_forgery_stream C07_program C07_tag_change_rejected", "")
c("C08", "proved", "C08_buffer C08_stream C08_buffer_refuted", "What is released before the final check; the unconditional form is refuted.")
c("C12", "proved", "C12_encrypt C12_decrypt", "Every fault point and read schedule.")
c("C43", "proved", "C43_buffer_encrypt C43_buffer_decrypt C43_stream_encrypt C43_stream_decrypt C43_program C43_write_error_refuted", "Every path except write errors of the stream forms, where the expanded key is left behind (refuted part).")
c("C50", "proved", "C50_step C50_history C50_defined C50_double_free C50_failed_prep C50_one_call", "")
c("C09", "proved", "C09_has_message C09_distinct_messages C09_codes C09_no_error_to_print C09_encrypt_buffer C09_encrypt_stream C09_decrypt_buffer C09_decrypt_stream C09_info", "Every code of every entry point has a message on stderr; distinct codes have distinct messages.")
c("C44", "proved", "C44_info C44_errors C44_only_first_bytes C44_shift_refuted C44_wrap_refuted", "Text of info/verbose output; logN >= 64 shifts and wrapped products are the refuted part.")
c("C46", "proved", "C46_same_key_block C46_trailing_zeros_refuted C46_digest_refuted C46_key_block C46_distinct", "Exact equivalence of passphrases under HMAC key blocks; distinct key blocks.")
c("C47", "proved", "C47_invalid C47_valid C47_never_limited C47_text", "Every explicit parameter set; warnings characterised exactly (memory) / up to 1+2^-51 (time).")
c("C48", "proved", "C48_sha_selected C48_aes_selected C48_aesctr_consistent C48_stable C48_warnings C48_correct_machine C48_detection C48_detection_cached", "Every history of uses on a machine whose detection answers and routines may change at every use.")
c("C49", "proved", "C49_align_ptr C49_round_keys C49_align64", "Every address, alignment and element count.")
c("C37", "proved", "C37_signed C37_unsigned C37_unsigned_exact C37_unsigned_range C37_unsigned_refuted C37_unsigned_errno C37_not_a_number C37_nobounds C37_float C37_float_refuted", "Every string, range and base; strtod is a parameter. The documented condition is refuted for negative text (unsigned) and NaN (floating point).")
c("C38", "proved", "C38_parse C38_unambiguous C38_registered_valid", "Every option table and argument vector.")
c("C40", "proved", "C40_parse C40_env C40_source", "Every argument string; every environment for the dispatch.")
c("C41", "proved", "C41_total C41_confirmed C41_once C41_twice C41_signals C41_wiped C41_long_line_refuted C41_nul_refuted C41_other_signal_refuted", "Every input stream and every arrival schedule of signals. 'Entered identically twice' is refuted for lines of 2047 bytes or more and for input with NUL; signals outside the caught set can find echo off.")
c("C42", "proved", "C42_file C42_text C42_faults C42_cr_refuted C42_error_refuted", "Every file content and every stream. The documented treatment of CR is refuted; a read error after the first line is taken for end of file.")
c("C10", "proved", "C10_output_after_verification C10_bad_header_untouched", "Every command line, world and fault in decrypt mode: the output is neither opened nor written before the header has been verified with the passphrase.")
c("C11", "proved", "C11_status C11_diagnosed C11_attributed C11_close_refuted", "Every command line and world. Status 0 means the operation completed; any other status is 1 and comes with a diagnostic, which names the file it concerns. That the output arrived is refuted: a failing fclose of the output leaves status 0.")
c("C39", "proved", "C39_validation C39_no_mode C39_determined C39_operation C39_rejects C39_ranges", "Every argument vector. strtod is a parameter.")
c("C51", "proved", "C51_decrypts C51_round_trip", "Every input, passphrase, command line and world in which the second run meets no failure.")
c("C52", "proved", "C52_defined C52_dec_explicit_refuted C52_nan_memory_refuted C52_nan_time_refuted C52_info_refuted", "Every command line, input and fault, given plausible clock readings and memory for the self-test and for messages (otherwise the code calls abort() or prints NULL). The four exceptions are refuted with concrete runs.")
c("C53", "proved", "C53_erased C53_memzero", "Every command line, world and fault. That the compiler keeps the stores is trusted.")
c("C54", "proved", "C54_in_place C54_same_buffer C54_overlap_refuted", "Every memory, placement and sequence of calls up to 2^64 bytes; all three code paths.")
c("C55", "proved", "C55_memory_returned C55_reference C55_same_function", "Every parameter set, build configuration and fault; both implementations.")
c("C56", "proved", "C56_dialogue C56_echo C56_program", "Every input stream, terminal and command line.")
c("C57", "proved", "C57_choice C57_check C57_decrypt_buffer C57_decrypt_stream", "Every pair of limits; doubles are Flocq binary64.")
c("C58", "proved", "C58_encrypt_buffer C58_decrypt_buffer C58_encrypt_stream C58_prepare C58_decrypt_stream C58_program C58_info", "Every call, command line and world. Needs memory for the message text, which only a verbose run uses.")
c("C59", "proved", "C59_status_buffer C59_status_stream C59_force_buffer C59_force_stream judges_within judges_ok", "Every input and limits in which no facility fails; the force theorems need no such assumption on the unforced run.")
c("C60", "proved", "C60_encrypts C60_decrypts C60_round_trip C60_everyday", "Every world without failures; C60_everyday assumes at least 110 operations per second and a slow-down of at most 60.")
c("C61", "proved", "C61_encrypt_buffer C61_encrypt_stream C61_decrypt_buffer C61_prepare C61_decrypt_stream C61_program_quiet C61_program_enc C61_program_dec", "Every call. The figures are those of the standard if they fit 64 bits (otherwise the C code shows them modulo 2^64). printf of %.1f is a parameter.")
c("C62", "proved", "C62_truncated_buffer C62_truncated_stream C62_written C62_interrupted", "Every crash point. That a truncated file never ends in a valid tag is a cryptographic assumption; the theorems name the event (lucky_tag) instead of assuming it away.")
c("C63", "proved", "C63_salts C63_disjoint", "Every history starting with an uninstantiated generator. That distinct pieces of generator output differ is a cryptographic assumption and not claimed.")
c("C64", "proved", "C64_harmless C64_report C64_status C64_only_parameters", "Every run that ends normally; the headers for which info has undefined behaviour or shows wrapped numbers are those of C44_shift_refuted and C44_wrap_refuted.")
c("C65", "proved", "C65_dispatch C65_rejects C65_main", "The grammar is SpecGetopt (C38). The switch is given by its line numbers and labels; jumping (setjmp/longjmp or computed goto) is modelled as the next turn of the initialisation loop. Fall-through between the statements behind two labels belongs to the caller and is not modelled.")
c("C66", "proved", "C66_messages C66_determined", "Formatting is an arbitrary C string; vsnprintf for syslog is assumed not to fail, since its result is not looked at by the code. Locking of stderr between threads and DEBUG builds (warnline) are not modelled.")
c("C67", "proved", "C67_asprintf C67_humansize", "vsnprintf is modelled by its specification (ISO C 7.21.6.12), each of the two calls may fail.")
c("C68", "proved", "C68_sha_stream C68_sha_buf C68_hmac_stream C68_hmac_buf C68_pbkdf2 C68_no_trace", "A second model of sha256.c (M_sha256_mem) in which automatic arrays are memory passed along, overlaps included; registers and spills by the compiler are outside the model.")
c("C69", "proved", "C69_no_trace C69_blank C69_unused C69_history", "The static state (Key, V) itself stays, as it must. Each local is accounted for as its function leaves it; insecure_memzero is taken to reach memory.")
c("C70", "proved", "C70_enc_buf C70_dec_buf C70_enc_file C70_dec_file", "The functions with their local arrays and contexts as memory (M_scryptenc_mem) have exactly the outcomes of the model of C01-C12. The heap objects (AES keys, streams, cookie) are C43 and C50. insecure_memzero is taken to reach memory; registers and compiler copies are not modelled.")
c("C71", "proved", "C71_enc C71_enc_in_place C71_dec_apart C71_dec_over C71_dec_in_place", "Model M_scryptenc_ovl: one memory, pointers as offsets; proved equal to M_scryptenc where the theorems say so. That decryption in place is in effect refused follows unless HMAC-SHA256 under the file's key collides. The remaining placements: C72, C73.")
c("C72", "proved", "C72_enc_onto_itself C72_decrypts_to_ruin", "A limit of the interface a caller must know: neither scryptenc.h nor the code rules this call out. Model M_scryptenc_ovl (C71).")
c("C73", "proved", "C73_stream_anywhere C73_enc_anywhere C73_enc_decrypts C73_dec_anywhere C73_seen_apart", "Generalises C54, C71 and C72 to the placements they leave out; C54 states the exact result for the documented placements.")
c("C74", "proved", "C74_buffer C74_buffer_exact C74_accepted C74_stream C74_stream_exact C74_program", "Interchangeable passphrases (C46) are a case of equal tags.")
c("C75", "proved", "C75_enc_lost C75_enc_empty C75_enc_succeeds C75_enc_endless C75_dec_refused C75_dec_unverified C75_dec_small C75_dec_small_succeeds C75_dec_large C75_dec_large_lost", "One inode, two FILEs (M_samefile): opening the output truncates what the input has not read ahead. No read, write, open or close error is modelled there.")
