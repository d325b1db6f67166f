# Formal model of Tarsnap/scrypt in Rocq (Coq 8.16.1)

Everything lives in `rocq/theories/`.  The theorems are about a Gallina model of
the C code in `/repo`.  The tie between model and code is reading: every
definition of an `M_*.v` file cites the file and lines it models.

## 1. Layers

| layer | files | content |
|---|---|---|
| base | `Base.v` | bytes/words as `N` with explicit `mod 2^k`, buffers as `list N`, the outcome monad `res` (`Ok` / `UB` / `Abort`), checked reads and writes |
| specifications | `Spec*.v` | FIPS 180-4, RFC 2104/8018 (`SpecSHA`), RFC 7914 (`SpecScrypt`), FIPS 197 (`SpecAES`), SP 800-90A (`SpecDRBG`), FORMAT (`SpecFormat`), the command-line and option grammars (`SpecCLI`, `SpecGetopt`), number syntax (`SpecNumber`), messages (`SpecText`), passphrase rules (`SpecPass`), API contracts (`SpecScryptAPI`, `SpecScryptenc`, `SpecStream`, `SpecDouble`).  Written from standards and documentation, not from the code |
| models | `M_*.v` | the C functions, one Gallina function each, with citations |
| proofs | `P_*.v` | lemmas |
| properties | `Prop_*.v` | the property theorems, each followed by concrete cases meeting its hypotheses (`*_hyps`, `*_case`), and `Print Assumptions` of the whole file |

Undefined behaviour (out-of-bounds access, oversized shift, signed overflow,
out-of-range float-to-integer conversion, division by zero, use or free of a
key object that is not allocated, printing NULL) is the outcome `UB`; `assert`
failure and `abort()` are `Abort`.  Theorems conclude `= Ok ...`, so they
include absence of both.  Loops of the C code that are not structurally
bounded run on fuel; running out of fuel is `UB`, so `= Ok` also includes
termination.  Uninitialised memory is read from an arbitrary function `junk`
over which every theorem quantifies.

System behaviour (memory limits, clock readings, entropy, malloc/mmap failures,
fread/fwrite/fclose results, tty lines, signals, cpuid, environment variables)
enters as universally quantified oracle arguments.

## 2. What is modelled

| code in /repo | model |
|---|---|
| libcperciva/util/sysendian.h | `M_endian` |
| libcperciva/crypto/crypto_verify_bytes.c | `M_verify` |
| libcperciva/util/align_ptr.h, alignment fall-back of crypto_scrypt.c | `M_align` |
| libcperciva/alg/sha256.c (streaming, HMAC, PBKDF2, software transform) | `M_sha256_tr`, `M_sha256`, and with the memory of its contexts and temporaries `M_sha256_mem` |
| libcperciva/alg/sha256_sse2.c, sha256_shani.c, sha256_arm.c | `M_sha256_hw` |
| lib/crypto/crypto_scrypt_smix.c, _smix_sse2.c, crypto_scrypt-ref.c, lib-platform/crypto/crypto_scrypt.c | `M_smix`, `M_scrypt_sel` |
| libcperciva/crypto/crypto_aes_aesni.c, crypto_aes_arm.c | `M_aes_hw` |
| libcperciva/crypto/crypto_aes.c, crypto_aesctr*.c | `M_aesctr`, and again over one memory with two pointers `M_aesctr_mem` |
| allocation and release in lib-platform/crypto/crypto_scrypt.c, lib/crypto/crypto_scrypt-ref.c | `M_scrypt_alloc` |
| libcperciva/util/insecure_memzero.c | `M_memzero` |
| libcperciva/util/entropy.c, libcperciva/crypto/crypto_entropy.c, crypto_entropy_rdrand.c | `M_entropy`, and with the memory of the generator `M_entropy_mem` |
| libcperciva/util/monoclock.c, lib/scryptenc/scryptenc_cpuperf.c | `M_cpuperf` |
| lib-platform/util/memlimit.c | `M_memlimit` |
| lib/scryptenc/scryptenc.c | `M_params`, `M_scryptenc`, `M_msg_text`, and with its local arrays and hash contexts as memory `M_scryptenc_mem`, with input and output in one memory `M_scryptenc_ovl`, and with input and output one file `M_samefile` |
| lib/scryptenc/scryptenc_print_error.c | `M_print_error` |
| libcperciva/util/warnp.[ch] (syslog mode included), asprintf.c | `M_warnp`; `M_print_error` has the standard-error form the program uses |
| libcperciva/util/humansize.c, parsenum.h | `M_humansize`, `M_parsenum` |
| libcperciva/util/getopt.[ch] | `M_getopt` (scanning), `M_getopt_sw` (static state, the GETOPT_SWITCH labels and their line numbers) |
| libcperciva/util/readpass.c, readpass_file.c, lib/util/passphrase_entry.c | `M_readpass` |
| libcperciva/cpusupport/*, hwaccel_init of sha256.c / crypto_aes.c / crypto_aesctr.c | `M_hwaccel` |
| main.c | `M_main` |

Whole-program and history properties: `Prop_main`, `Prop_cli`, `Prop_unforced`
and `Prop_plain` are about `main`; `Prop_history` is about arbitrary sequences of
library calls in one process; `Prop_crash` about encryptions interrupted after any
write and about every truncation; `Prop_inspect` about info runs; `Prop_monotone`
compares two runs.  `Check_format.v` evaluates the model on a known file while
compiling; it is a test of the model, no property rests on it.

`M_simd` (vector registers), `M_stdio` (ISO C streams), `M_strto` (strtoimax,
strtoumax) and `M_double` (IEEE doubles) model what the code runs on, not code
of /repo.

### Not modelled
* tests/, perftests/, the build system, `libscrypt-kdf` packaging, and the code of libcperciva that scrypt does not link.
* Real erasure of memory by an optimising compiler: `insecure_memzero` is modelled by its effect.  What the code does not erase is stated, not hidden: after a read or write error scryptenc_file and scryptdec_file_copy leave the file's HMAC context, scryptdec_file_copy leaves plaintext in its buffer, a failed check leaves the HMAC that did not match (C70); the memory areas of crypto_scrypt (B, XY, V) are freed without being erased, and no theorem says otherwise.
* Timing.  C31 states which bytes are read, not how long it takes.
* errno texts are opaque; warnings of readpass and main are recorded without the errno suffix and program name.
* setjmp/longjmp as such: a jump back to GETOPT_SWITCH is the next turn of the initialisation loop of `M_getopt_sw`.
* What exactly buffer functions leave when the output starts less than 16 bytes ahead of where it is read (there the result depends on the AES implementation); C73 states what holds for every placement, C54, C71 and C72 the exact results for the others.
* Big-endian hosts: vector registers and the copying of RDRAND words are little-endian; the rest of the code reads and writes integers byte by byte.

## 3. Trusted base
* Coq 8.16.1's kernel (with `vm_compute`), and the reading of the C code.
* Axioms: `Print Assumptions` is run at the end of every `Prop_*.v`.  Theorems that do not involve floating point are *Closed under the global context*.  Those that do depend, through Flocq, on the standard library's axioms of the reals and nothing else: `ClassicalDedekindReals.sig_not_dec`, `ClassicalDedekindReals.sig_forall_dec`, `FunctionalExtensionality.functional_extensionality_dep`, `Classical_Prop.classic`.  Section 5 lists them per theorem.
* Intrinsics: `M_simd.v` and the instruction definitions in `M_sha256_hw.v` and `M_aes_hw.v` follow the Intel and Arm manuals.
* OpenSSL's AES is FIPS 197 (AES_set_encrypt_key / AES_encrypt).
* C: LP64 or ILP32-like `size_t` as parameter `szb` where it matters, two's complement, 8-bit bytes, IEEE binary64 `double` without excess precision (FLT_EVAL_METHOD 0), round to nearest.
* ISO C/POSIX: `M_stdio` allows every chunking, error and end-of-file placement; a read interrupted by a signal is a read error.  strtod and printf's `%.1f` are arbitrary functions.
* The measuring loops of scryptenc_cpuperf run on a finite list of clock readings; if the list ends before the clock has advanced, the clock counts as failing.

## 4. How the theorems were tested
`seeded/mutations.py` lists realistic bugs (definition, edit, claim broken);
`tools/mutate.py` applies each to a scratch copy of the model, rebuilds and
records which theorems no longer go through.  `seeded/LOG.jsonl` has one line per
attempt, including the theorems that had to be tightened.

## 5. Status per property

Theorems marked R rest on the four standard-library axioms of section 3; the others are closed under the global context.  Theorems named `*_refuted` prove that the code violates the unconditional form, by a concrete run.

* **C01 Buffer encrypt/decrypt round trip** - proved.  `C01_round_trip` (R), `C01_stream_round_trip` (R).  Buffer and stream forms; automatically chosen and explicit parameters.
* **C02 Encrypted output has exactly the documented format** - proved.  `C02_format` (R), `C02_succeeds` (R), `C02_auto_succeeds` (R).  Exact file contents, and success whenever no system call fails.
* **C03 Stream encryption is independent of read chunking and equals buffer encryption** - proved.  `C03_stream_equals_buffer` (R).  Every read schedule.
* **C04 Stream decryption is independent of read chunking and equals buffer decryption** - proved.  `C04_stream_equals_buffer` (R), `C04_truncated` (R), `C04_truncated_refuted` (R).  Equality for every read schedule; inputs of 96 to 127 bytes get different codes (EINVAL / the setup codes) in the two forms, which the refuted part shows on a concrete file.
* **C05 Decryption accepts exactly the well-formed, correctly keyed inputs** - proved.  `C05_accepts_iff` (R), `C05_stream_accepts_iff` (R).  Acceptance if and only if the input is a well-formed file of the format for that passphrase.
* **C06 Error classification of bad inputs** - proved.  `C06_status_buffer` (R), `C06_status_stream` (R), `C06_any_environment_buffer` (R), `C06_any_environment_stream` (R).  Exact status in a failure-free environment, soundness of each code in any environment.
* **C07 Accepted modification is an HMAC forgery** - proved.  `C07_forgery` (R), `C07_forgery_stream` (R), `C07_program` (R), `C07_tag_change_rejected` (R).  
* **C08 Unauthenticated plaintext release** - proved.  `C08_buffer` (R), `C08_stream` (R), `C08_buffer_refuted` (R).  What is released before the final check; the unconditional form is refuted.
* **C09 Every failure has a documented code and message** - proved.  `C09_has_message`, `C09_distinct_messages`, `C09_codes`, `C09_no_error_to_print`, `C09_encrypt_buffer` (R), `C09_encrypt_stream` (R), `C09_decrypt_buffer` (R), `C09_decrypt_stream` (R), `C09_info` (R).  Every code of every entry point has a message on stderr; distinct codes have distinct messages.
* **C10 A wrong passphrase or bad header never touches the output file** - proved.  `C10_output_after_verification` (R), `C10_bad_header_untouched` (R).  Every command line, world and fault in decrypt mode: the output is neither opened nor written before the header has been verified with the passphrase.
* **C11 Exit status** - proved.  `C11_status` (R), `C11_diagnosed` (R), `C11_attributed` (R), `C11_close_refuted` (R).  Every command line and world. Status 0 means the operation completed; any other status is 1 and comes with a diagnostic, which names the file it concerns. That the output arrived is refuted: a failing fclose of the output leaves status 0.
* **C12 I/O failures are never reported as success** - proved.  `C12_encrypt` (R), `C12_decrypt` (R).  Every fault point and read schedule.
* **C13 Chosen parameters are valid** - proved.  `C13_chosen_parameters_valid` (R), `C13_total` (R), `C13_nan_refuted` (R).  All budgets, speeds and time limits that are numbers; a NaN time limit is undefined behaviour (refuted part). Doubles are IEEE binary64 via Flocq.
* **C14 Chosen parameters respect the limits** - proved.  `C14_chosen_parameters_respect_limits` (R).  
* **C15 Chosen parameters are as strong as the limits allow** - proved.  `C15_chosen_parameters_maximal` (R), `C15_encrypt_buffer` (R), `C15_encrypt_stream` (R).  The last two state C13-C15 for the header written by a successful encryption.
* **C16 Limit checks on decryption are exact** - proved.  `C16_limit_checks` (R), `C16_invalid` (R), `C16_force` (R), `C16_nan_refuted` (R).  Memory exact; CPU exact up to the factor 1+2^-51 of three double divisions. NaN time limit disables the check (refuted part).
* **C17 What you encrypted you may decrypt under the same limits** - proved.  `C17_decryptable` (R), `C17_same_environment` (R), `C17_below_floor_refuted` (R).  Holds above the 2^15 floor; proved to fail always below it.
* **C18 Memory budget bounds** - proved.  `C18_memory_budget` (R), `C18_defined` (R), `C18_defined_refuted` (R).  
* **C19 crypto_scrypt computes the scrypt function of RFC 7914** - proved.  `C19_crypto_scrypt`, `C19_large_p`, `C19_large_p_not_rfc`.  RFC 7914 for every valid parameter set with p <= 2^25; for larger p the exact (non-RFC) function computed is characterised: the uint32_t product i*128 wraps.
* **C20 crypto_scrypt rejects exactly the invalid parameters and never wraps a size computation** - proved.  `C20_rejects`, `C20_accepts`, `C20_sizes`.  32- and 64-bit size_t; all allocator behaviours.
* **C21 SSE2 mixing computes the same function as the generic code** - proved.  `C21_sse2_equals_generic`.  Relative to the vendor semantics of the SSE2 intrinsics.
* **C22 The reference implementation agrees with the optimised one** - proved.  `C22_reference_agrees`, `C22_reference_N1`, `C22_reference_zero_refuted`.  
* **C23 Self-test driven selection of the mixing routine** - proved.  `C23_selected_routine_passed`, `C23_broken_sse2_never_used`, `C23_choice_stable`, `C23_never_aborts`, `C23_no_memory_aborts`.  Arbitrary (broken) routines for the safety part; real routines for never_aborts.
* **C24 SHA-256 streaming equals the standard hash for any chunking** - proved.  `C24_sha256_streaming`, `C24_sha256_buf`.  For every transform implementation, initial context contents and chunking.
* **C25 HMAC-SHA256 equals RFC 2104 for any key length and chunking** - proved.  `C25_hmac_streaming`, `C25_hmac_buf`.  All key lengths, all chunkings.
* **C26 PBKDF2-HMAC-SHA256 equals RFC 8018** - proved.  `C26_pbkdf2`, `C26_pbkdf2_too_long`.  All iteration counts and output lengths.
* **C27 Hardware SHA-256 transforms equal the portable one** - proved.  `C27_transforms_agree`.  Relative to the vendor semantics of the intrinsics in M_simd.v / M_sha256_hw.v.
* **C28 AES-CTR stream semantics** - proved.  `C28_stream`, `C28_buf`, `C28_involutive`, `C28_keystream`.  All call splittings, software and hardware block functions; relative to OpenSSL AES = FIPS-197.
* **C29 Hardware AES-CTR produces the same stream as software** - proved.  `C29_hw_equals_sw`.  Relative to the vendor semantics of the AES instructions in M_aes_hw.v.
* **C30 Hardware AES equals FIPS-197** - proved.  `C30_aesni`, `C30_arm`, `C30_round_keys`, `C30_bad_length`.  AES-NI and ARM; 128- and 256-bit keys.
* **C31 Constant-time compare is an equality test** - proved.  `C31_verify_bytes`, `C31_data_independent`.  
* **C32 Endian codecs** - proved.  `C32_be16`, `C32_be32`, `C32_be64`, `C32_le16`, `C32_le32`, `C32_le64`.  Portable byte-shift implementations.
* **C33 Random generator follows HMAC_DRBG** - proved.  `C33_hmac_drbg`, `C33_fails_only_without_entropy`, `C33_no_unseeded_output`, `C33_succeeds`.  All call histories, all operating-system and RDRAND behaviours.
* **C34 Entropy source reads are complete or fail** - proved.  `C34_success`, `C34_total`, `C34_released`.  All read/close schedules.
* **C35 humansize prints the largest representable value not exceeding the size** - proved.  `C35_humansize`.  
* **C36 humansize_parse accepts exactly its documented grammar** - proved.  `C36_humansize_parse`.  
* **C37 Numeric option parsing** - proved.  `C37_signed`, `C37_unsigned`, `C37_unsigned_exact`, `C37_unsigned_range`, `C37_unsigned_refuted`, `C37_unsigned_errno`, `C37_not_a_number`, `C37_nobounds`, `C37_float`, `C37_float_refuted`.  Every string, range and base; strtod is a parameter. The documented condition is refuted for negative text (unsigned) and NaN (floating point).
* **C38 Option parsing follows the documented grammar** - proved.  `C38_parse`, `C38_unambiguous`, `C38_registered_valid`.  Every option table and argument vector.
* **C39 Command-line validation** - proved.  `C39_validation` (R), `C39_no_mode` (R), `C39_determined` (R), `C39_operation` (R), `C39_rejects` (R), `C39_ranges` (R).  Every argument vector. strtod is a parameter.
* **C40 Passphrase method parsing** - proved.  `C40_parse`, `C40_env`, `C40_source`.  Every argument string; every environment for the dispatch.
* **C41 Interactive passphrase entry** - proved.  `C41_total`, `C41_confirmed`, `C41_once`, `C41_twice`, `C41_signals`, `C41_wiped`, `C41_long_line_refuted`, `C41_nul_refuted`, `C41_other_signal_refuted`.  Every input stream and every arrival schedule of signals. 'Entered identically twice' is refuted for lines of 2047 bytes or more and for input with NUL; signals outside the caught set can find echo off.
* **C42 Passphrase file** - proved.  `C42_file`, `C42_text`, `C42_faults`, `C42_cr_refuted`, `C42_error_refuted`.  Every file content and every stream. The documented treatment of CR is refuted; a read error after the first line is taken for end of file.
* **C43 Key hygiene** - proved.  `C43_buffer_encrypt` (R), `C43_buffer_decrypt` (R), `C43_stream_encrypt` (R), `C43_stream_decrypt` (R), `C43_program` (R), `C43_write_error_refuted` (R).  Every path except write errors of the stream forms, where the expanded key is left behind (refuted part).
* **C44 Parameter display** - proved.  `C44_info` (R), `C44_errors` (R), `C44_only_first_bytes` (R), `C44_shift_refuted` (R), `C44_wrap_refuted` (R).  Text of info/verbose output; logN >= 64 shifts and wrapped products are the refuted part.
* **C45 Speed estimate is a positive finite number** - proved.  `C45_terminates` (R), `C45_estimate` (R).  Clock resolution positive, fewer than 2^54 iterations.
* **C46 Distinct passphrases** - proved.  `C46_same_key_block` (R), `C46_trailing_zeros_refuted` (R), `C46_digest_refuted` (R), `C46_key_block`, `C46_distinct`.  Exact equivalence of passphrases under HMAC key blocks; distinct key blocks.
* **C47 Explicit parameters override limits when encrypting** - proved.  `C47_invalid` (R), `C47_valid` (R), `C47_never_limited` (R), `C47_text` (R).  Every explicit parameter set; warnings characterised exactly (memory) / up to 1+2^-51 (time).
* **C48 Hardware acceleration selection** - proved.  `C48_sha_selected`, `C48_aes_selected`, `C48_aesctr_consistent`, `C48_stable`, `C48_warnings`, `C48_correct_machine`, `C48_detection`, `C48_detection_cached`.  Every history of uses on a machine whose detection answers and routines may change at every use.
* **C49 Aligned pointer stays inside its buffer** - proved.  `C49_align_ptr`, `C49_round_keys`, `C49_align64`.  Every address, alignment and element count.
* **C50 Decryption cookie life cycle** - proved.  `C50_step` (R), `C50_history` (R), `C50_defined` (R), `C50_double_free`, `C50_failed_prep` (R), `C50_one_call` (R).  
* **C51 The program undoes its own encryption** - proved.  `C51_decrypts` (R), `C51_round_trip` (R).  Every input, passphrase, command line and world in which the second run meets no failure.
* **C52 Normal termination** - proved.  `C52_defined` (R), `C52_dec_explicit_refuted` (R), `C52_nan_memory_refuted` (R), `C52_nan_time_refuted` (R), `C52_info_refuted` (R).  Every command line, input and fault, given plausible clock readings and memory for the self-test and for messages (otherwise the code calls abort() or prints NULL). The four exceptions are refuted with concrete runs.
* **C53 The passphrase is erased** - proved.  `C53_erased` (R), `C53_memzero`.  Every command line, world and fault. That the compiler keeps the stores is trusted.
* **C54 In-place stream encryption** - proved.  `C54_in_place`, `C54_same_buffer`, `C54_overlap_refuted`.  Every memory, placement and sequence of calls up to 2^64 bytes; all three code paths.
* **C55 Key derivation returns the memory it takes** - proved.  `C55_memory_returned`, `C55_reference`, `C55_same_function`.  Every parameter set, build configuration and fault; both implementations.
* **C56 The passphrase dialogue** - proved.  `C56_dialogue`, `C56_echo`, `C56_program` (R).  Every input stream, terminal and command line.
* **C57 Looser limits never hurt** - proved.  `C57_choice` (R), `C57_check` (R), `C57_decrypt_buffer` (R), `C57_decrypt_stream` (R).  Every pair of limits; doubles are Flocq binary64.
* **C58 Verbosity changes only messages** - proved.  `C58_encrypt_buffer` (R), `C58_decrypt_buffer` (R), `C58_encrypt_stream` (R), `C58_prepare` (R), `C58_decrypt_stream` (R), `C58_program` (R), `C58_info` (R).  Every call, command line and world. Needs memory for the message text, which only a verbose run uses.
* **C59 Decryption under limits** - proved.  `C59_status_buffer` (R), `C59_status_stream` (R), `C59_force_buffer` (R), `C59_force_stream` (R), `judges_within` (R), `judges_ok` (R).  Every input and limits in which no facility fails; the force theorems need no such assumption on the unforced run.
* **C60 Everyday use without options** - proved.  `C60_encrypts` (R), `C60_decrypts` (R), `C60_round_trip` (R), `C60_everyday` (R).  Every world without failures; C60_everyday assumes at least 110 operations per second and a slow-down of at most 60.
* **C61 What a verbose run displays** - proved.  `C61_encrypt_buffer` (R), `C61_encrypt_stream` (R), `C61_decrypt_buffer` (R), `C61_prepare` (R), `C61_decrypt_stream` (R), `C61_program_quiet` (R), `C61_program_enc` (R), `C61_program_dec` (R).  Every call. The figures are those of the standard if they fit 64 bits (otherwise the C code shows them modulo 2^64). printf of %.1f is a parameter.
* **C62 Truncated files and interrupted encryptions never yield wrong plaintext** - proved.  `C62_truncated_buffer` (R), `C62_truncated_stream` (R), `C62_written` (R), `C62_interrupted` (R).  Every crash point. That a truncated file never ends in a valid tag is a cryptographic assumption; the theorems name the event (lucky_tag) instead of assuming it away.
* **C63 Salts over the life of a process** - proved.  `C63_salts` (R), `C63_disjoint` (R).  Every history starting with an uninstantiated generator. That distinct pieces of generator output differ is a cryptographic assumption and not claimed.
* **C64 Inspecting a file is harmless and needs only its parameters** - proved.  `C64_harmless` (R), `C64_report` (R), `C64_status` (R), `C64_only_parameters` (R).  Every run that ends normally; the headers for which info has undefined behaviour or shows wrapped numbers are those of C44_shift_refuted and C44_wrap_refuted.
* **C65 Option labels: every option reaches its own code** - proved.  `C65_dispatch`, `C65_rejects`, `C65_main`.  The grammar is SpecGetopt (C38). The switch is given by its line numbers and labels; jumping (setjmp/longjmp or computed goto) is modelled as the next turn of the initialisation loop. Fall-through between the statements behind two labels belongs to the caller and is not modelled.
* **C66 Warnings: one destination, whole text, errno kept** - proved.  `C66_messages`, `C66_determined`.  Formatting is an arbitrary C string; vsnprintf for syslog is assumed not to fail, since its result is not looked at by the code. Locking of stderr between threads and DEBUG builds (warnline) are not modelled.
* **C67 Formatted strings: exact block or nothing** - proved.  `C67_asprintf`, `C67_humansize`.  vsnprintf is modelled by its specification (ISO C 7.21.6.12), each of the two calls may fail.
* **C68 Hashing leaves no trace in its own memory** - proved.  `C68_sha_stream`, `C68_sha_buf`, `C68_hmac_stream`, `C68_hmac_buf`, `C68_pbkdf2`, `C68_no_trace`.  A second model of sha256.c (M_sha256_mem) in which automatic arrays are memory passed along, overlaps included; registers and spills by the compiler are outside the model.
* **C69 The random generator leaves no seed and no copy of its state behind** - proved.  `C69_no_trace`, `C69_blank`, `C69_unused`, `C69_history`.  The static state (Key, V) itself stays, as it must. Each local is accounted for as its function leaves it; insecure_memzero is taken to reach memory.
* **C70 What encryption and decryption leave in their own memory** - proved.  `C70_enc_buf` (R), `C70_dec_buf` (R), `C70_enc_file` (R), `C70_dec_file` (R).  The functions with their local arrays and contexts as memory (M_scryptenc_mem) have exactly the outcomes of the model of C01-C12. The heap objects (AES keys, streams, cookie) are C43 and C50. insecure_memzero is taken to reach memory; registers and compiler copies are not modelled.
* **C71 Buffer functions with overlapping input and output** - proved.  `C71_enc` (R), `C71_enc_in_place` (R), `C71_dec_apart` (R), `C71_dec_over` (R), `C71_dec_in_place` (R).  Model M_scryptenc_ovl: one memory, pointers as offsets; proved equal to M_scryptenc where the theorems say so. That decryption in place is in effect refused follows unless HMAC-SHA256 under the file's key collides. The remaining placements: C72, C73.
* **C72 Encrypting a buffer onto itself loses it** - proved.  `C72_enc_onto_itself` (R), `C72_decrypts_to_ruin` (R).  A limit of the interface a caller must know: neither scryptenc.h nor the code rules this call out. Model M_scryptenc_ovl (C71).
* **C73 Input and output anywhere in memory** - proved.  `C73_stream_anywhere`, `C73_enc_anywhere` (R), `C73_enc_decrypts` (R), `C73_dec_anywhere` (R), `C73_seen_apart`.  Generalises C54, C71 and C72 to the placements they leave out; C54 states the exact result for the documented placements.
* **C74 A wrong passphrase is refused without a trace** - proved.  `C74_buffer` (R), `C74_buffer_exact` (R), `C74_accepted` (R), `C74_stream` (R), `C74_stream_exact` (R), `C74_program` (R).  Interchangeable passphrases (C46) are a case of equal tags.
* **C75 The same file as input and output** - proved.  `C75_enc_lost` (R), `C75_enc_empty` (R), `C75_enc_succeeds` (R), `C75_enc_endless`, `C75_dec_refused` (R), `C75_dec_unverified` (R), `C75_dec_small` (R), `C75_dec_small_succeeds` (R), `C75_dec_large` (R), `C75_dec_large_lost` (R).  One inode, two FILEs (M_samefile): opening the output truncates what the input has not read ahead. No read, write, open or close error is modelled there.
