#!/usr/bin/env python3
"""Generates /verif/properties.jsonl (single source of truth for the property list)."""
import json, os
P = []
def p(id, title, statement, quant, why, anchors):
    P.append(dict(id=id, title=title, statement=statement, quantifier=quant, why_tests_cant=why, anchors=anchors))
SE="lib/scryptenc/scryptenc.c"; SHA="libcperciva/alg/sha256.c"; CS="lib-platform/crypto/crypto_scrypt.c"
CTR="libcperciva/crypto/crypto_aesctr.c"; CTRS="libcperciva/crypto/crypto_aesctr_shared.c"
ALLIN="A test samples a few inputs; the claim is about every input."
p("C01","Buffer encrypt/decrypt round trip",
  "If encrypting a buffer succeeds, then decrypting the result with the same passphrase, with resource checks disabled, succeeds, returns exactly the original plaintext and length, and reports back the scrypt parameters that encryption reported.",
  "every plaintext, passphrase, explicit or automatically chosen parameter set, salt delivered by the system, and CPU/memory environment", ALLIN+" The parameter choice depends on machine speed and memory, which a test cannot sweep.",
  [f"{SE}: scryptenc_buf, scryptdec_buf, scryptenc_setup, scryptdec_setup"])
p("C02","Encrypted output has exactly the documented format",
  "Successful encryption of X bytes yields exactly X+128 bytes laid out as the FORMAT document says: magic, version 0, log2(N), big-endian r and p, salt, truncated SHA-256 checksum, header HMAC, AES256-CTR (nonce 0) ciphertext, trailing HMAC over everything before it, where the two keys are the halves of scrypt(passphrase, salt, N, r, p, 64).",
  "every plaintext, passphrase, parameter set and salt", ALLIN, [f"{SE}: scryptenc_setup, scryptenc_buf","FORMAT"])
p("C03","Stream encryption is independent of read chunking and equals buffer encryption",
  "Encrypting a stream writes exactly the bytes buffer encryption would produce for the concatenated input, however the input is delivered in non-empty pieces by the I/O layer.",
  "every input, every schedule of read sizes", "The number of possible read-size schedules is unbounded; tests exercise regular files only.",
  [f"{SE}: scryptenc_file", f"{CTR}: crypto_aesctr_stream", f"{SHA}: HMAC_SHA256_Update"])
p("C04","Stream decryption is independent of read chunking and equals buffer decryption",
  "Decrypting a stream returns the same status as buffer decryption of the concatenated input (given the same environment), except on inputs of 96 to 127 bytes, where buffer decryption reports an invalid input at once while stream decryption first verifies the header; on success it has written exactly the plaintext; the trailing 32 bytes are never emitted, however the input is delivered.",
  "every input, every schedule of read sizes", "Same: the hold-back of the last 32 bytes interacts with each possible read size.",
  [f"{SE}: scryptdec_file_copy, scryptdec_file_prep, scryptdec_file_load_header, scryptdec_file"])
p("C05","Decryption accepts exactly the well-formed, correctly keyed inputs",
  "With resource checks disabled and no system failure, decryption succeeds if and only if the input is a well-formed FORMAT file for that passphrase with valid parameters and both HMACs correct; and then the output is the CTR decryption of bytes 96..len-32.",
  "every byte string and passphrase", ALLIN, [f"{SE}: scryptdec_buf, scryptdec_setup","FORMAT"])
p("C06","Error classification of bad inputs",
  "Decryption reports: not a scrypt file / too short / bad checksum / bad parameters / bad final HMAC as SCRYPT_EINVAL, other version bytes as SCRYPT_EVERSION, header HMAC mismatch as SCRYPT_EPASS, in that documented precedence, and each code is returned only in that situation.",
  "every input and passphrase", ALLIN, [f"{SE}: scryptdec_buf, scryptdec_file_load_header, scryptdec_setup"])
p("C07","Accepted modification is an HMAC forgery",
  "If a file produced by encryption is altered in any way yet still decrypts successfully under the same passphrase, then the altered file contains a message different from every HMACed message of the original with a valid HMAC-SHA256 tag under the derived key of its own header; in particular with an unchanged header either the altered body is a new message with a valid tag, and changing only the trailing tag is always rejected; truncation or extension is covered.",
  "every original file and every altered file", "Tests flip a few bits; the claim is about every modification.", [f"{SE}: scryptdec_buf, scryptdec_file_copy"])
p("C08","Unauthenticated plaintext release",
  "A failed decryption leaves the caller's output untouched (documented caveat for streams: output may be produced before corruption is detected). The code violates the buffer form: on a final-HMAC failure the output buffer and length have already been written. What does hold: when decryption fails before the body is processed nothing is written, and whatever is written on a later failure is exactly the CTR decryption of a prefix of the body.",
  "every input", ALLIN, [f"{SE}: scryptdec_buf, scryptdec_file_copy","scrypt.1: EXIT STATUS"])
p("C09","Every failure has a documented code and message",
  "Every status returned by the encryption and decryption entry points is one of the documented codes, and each non-OK code has its own message: the 'Programmer error' message is unreachable and distinct codes give distinct messages.",
  "every execution of every entry point", "Error paths depend on system failures that tests do not provoke.", ["lib/scryptenc/scryptenc_print_error.c: scryptenc_print_error",f"{SE}","lib/scryptenc/scryptenc.h"])
p("C10","A wrong passphrase or bad header never touches the output file",
  "In decrypt mode the output file is opened (and hence truncated) only after the header was fully read, its checksum verified, parameters accepted and the passphrase verified.",
  "every input file, passphrase and environment", ALLIN, ["main.c: scrypt_mode_enc_dec"])
p("C11","Exit status",
  "The program exits 0 only if the requested operation completed and all output was delivered. The code violates this: a failed close (flush) of the output only prints a warning and the exit status remains 0. What holds: exit status 0 implies the library call returned success.",
  "every run, every failure point of close/flush", "Needs a flush failure exactly at close time.", ["main.c: scrypt_mode_enc_dec, main"])
p("C12","I/O failures are never reported as success",
  "If any write to the output stream is short or the input stream reports a read error at any point, encryption and decryption return SCRYPT_EWRFILE or SCRYPT_ERDFILE, never success; and the bytes already written are a prefix of what the failure-free run would have written.",
  "every crash/fault point, every read schedule", "Fault points are unbounded.", [f"{SE}: scryptenc_file, scryptdec_file_copy, scryptdec_file_load_header"])
p("C13","Chosen parameters are valid",
  "Whenever encryption chooses parameters itself, they satisfy the format's constraints: 1 <= log2(N) <= 63, r = 8, p >= 1, r*p < 2^30 (so the derived-key computation accepts them).",
  "every memory limit, CPU speed and time limit (as IEEE doubles)", "Depends on machine speed and memory.", [f"{SE}: pickparams"])
p("C14","Chosen parameters respect the limits",
  "Whenever encryption chooses parameters itself, 128*N*r is at most the memory limit, and 4*N*r*p is at most max(2^15, speed*maxtime) as computed in double precision.",
  "every memory limit, CPU speed and time limit", "Depends on machine speed and memory.", [f"{SE}: pickparams"])
p("C15","Chosen parameters are as strong as the limits allow",
  "The chosen N is the largest power of two allowed by the binding limit (doubling it would exceed the limit), and when memory binds, p is the largest the CPU limit allows up to the format's cap.",
  "every memory limit, CPU speed and time limit", "Depends on machine speed and memory.", [f"{SE}: pickparams"])
p("C16","Limit checks on decryption are exact",
  "Without force, decryption proceeds to key derivation only if 128*N*r <= memory limit and the CPU estimate fits; it returns TOOBIG/TOOSLOW/BIGSLOW exactly according to which limits fail; no wrap-around of 128*N*r can cause a false accept.",
  "every header parameter set and environment", "Overflow corner cases cannot be swept by tests.", [f"{SE}: checkparams"])
p("C17","What you encrypted you may decrypt under the same limits",
  "Parameters chosen by encryption pass the decryption-time limit check in the same environment with the same limits. The code violates this when speed*maxtime < 2^15, because the 2^15 floor is applied when choosing but not when checking.",
  "every environment", "Depends on machine speed.", [f"{SE}: pickparams, checkparams"])
p("C18","Memory budget bounds",
  "The memory budget is at least 1 MiB, and otherwise never more than the requested maximum (if given) nor more than the requested fraction of the smallest system limit (as rounded by double arithmetic). Converting the product back to an integer is undefined when fraction and limit make it reach 2^64.",
  "every fraction, maximum and combination of system limits", "Depends on system limits.", ["lib-platform/util/memlimit.c: memtouse, memlimit_rlimit, memlimit_sysconf"])
p("C19","crypto_scrypt computes the scrypt function of RFC 7914",
  "For all valid parameters and when memory is available, crypto_scrypt returns 0 and fills the buffer with scrypt(passwd, salt, N, r, p, buflen) as defined in RFC 7914. The code violates this for p > 2^25 (accepted on 64-bit size_t when r <= 31): the block offset i * 128 * r is computed with a 32-bit i * 128, so that blocks from 2^25 on are never mixed and the low blocks are mixed repeatedly. It holds for all p <= 2^25.",
  "every passphrase, salt, N, r, p, output length", "Test vectors cover a handful of points.", [f"{CS}: crypto_scrypt_internal","lib/crypto/crypto_scrypt_smix.c"])
p("C20","crypto_scrypt rejects exactly the invalid parameters and never wraps a size computation",
  "crypto_scrypt fails before allocating for r=0, p=0, r*p >= 2^30, N not a power of two or N<2, over-long output, or sizes not representable; for all other parameters no size computation wraps on 32- or 64-bit size_t and every memory access during mixing is inside its allocation.",
  "every parameter combination, both size_t widths", "The parameter space is 2^128.", [f"{CS}: crypto_scrypt_internal","lib/crypto/crypto_scrypt_smix.c: crypto_scrypt_smix"])
p("C21","SSE2 mixing computes the same function as the generic code",
  "The SSE2 smix routine maps every block to the same result as the generic smix routine.",
  "every block, r, N", "Runtime self-test checks one vector.", ["lib/crypto/crypto_scrypt_smix_sse2.c"])
p("C22","The reference implementation agrees with the optimised one",
  "The reference crypto_scrypt and the optimised crypto_scrypt return identical output for all parameters valid for the optimised one; they differ only in that the reference accepts N=1 and divides by zero (undefined) for r=0 or p=0.",
  "every input", "Infinite domain.", ["lib/crypto/crypto_scrypt-ref.c",f"{CS}"])
p("C23","Self-test driven selection of the mixing routine",
  "The library selects a mixing routine only if it reproduces the built-in test vector; the generic routine always passes on a machine executing the C semantics (so the process never aborts there unless memory is unavailable), a failing SSE2 unit is never used, and once selected the choice is stable over any call history.",
  "every call history, every behaviour of the SSE2 unit", "Requires faulty hardware and all histories.", [f"{CS}: selectsmix, testsmix, crypto_scrypt"])
p("C24","SHA-256 streaming equals the standard hash for any chunking",
  "Init, any sequence of Updates, Final gives FIPS 180-4 SHA-256 of the concatenated input; SHA256_Buf agrees.",
  "every message and every split into chunks, including empty ones", "Infinite domain.", [f"{SHA}: SHA256_Init, SHA256_Update, SHA256_Final, SHA256_Buf, SHA256_Pad, SHA256_Transform"])
p("C25","HMAC-SHA256 equals RFC 2104 for any key length and chunking",
  "HMAC Init/Update*/Final equals HMAC-SHA256 per RFC 2104, including keys longer than 64 bytes and empty keys; HMAC_SHA256_Buf agrees.",
  "every key, message, chunking", "Infinite domain.", [f"{SHA}: HMAC_SHA256_Init, HMAC_SHA256_Update, HMAC_SHA256_Final, HMAC_SHA256_Buf"])
p("C26","PBKDF2-HMAC-SHA256 equals RFC 8018",
  "PBKDF2_SHA256 writes exactly dkLen bytes equal to PBKDF2 per RFC 8018 for every iteration count and output length up to 32*(2^32-1); longer requests hit the assertion.",
  "every passphrase, salt, count, length", "Infinite domain.", [f"{SHA}: PBKDF2_SHA256"])
p("C27","Hardware SHA-256 transforms equal the portable one",
  "The SSE2, SHA-NI and ARM block transforms compute the same state update as the portable transform.",
  "every state and block", "Runtime self-test checks one block.", ["libcperciva/alg/sha256_sse2.c","libcperciva/alg/sha256_shani.c","libcperciva/alg/sha256_arm.c",f"{SHA}: SHA256_Transform"])
p("C28","AES-CTR stream semantics",
  "Successive calls on a stream xor the data with consecutive bytes of the CTR key stream AES_k(nonce || be64(0)), AES_k(nonce || be64(1)), ... independent of how data is split into calls; crypto_aesctr_buf agrees; applying the stream twice restores the data.",
  "every key, nonce, data, split, including counter wrap at every 256 blocks", "Split schedules are unbounded; counter carries only occur in long streams.", [f"{CTR}",f"{CTRS}"])
p("C29","Hardware AES-CTR produces the same stream as software",
  "The AES-NI and ARM CTR paths produce the same output bytes as the portable path and leave the stream usable by either path.",
  "every stream state, data and interleaving of short and long calls", "Self-test does not cover CTR at all.", ["libcperciva/crypto/crypto_aesctr_aesni.c","libcperciva/crypto/crypto_aesctr_arm.c",f"{CTR}"])
p("C30","Hardware AES equals FIPS-197",
  "Key expansion and block encryption with AES-NI (and ARM) instructions equal FIPS-197 AES for 128- and 256-bit keys.",
  "every key and block", "Self-test checks one vector per key size.", ["libcperciva/crypto/crypto_aes_aesni.c","libcperciva/crypto/crypto_aes_arm.c","libcperciva/crypto/crypto_aes.c"])
p("C31","Constant-time compare is an equality test",
  "crypto_verify_bytes returns 0 exactly when the two byte ranges are equal, and inspects every byte regardless of their values.",
  "every pair of buffers and length", "Infinite domain.", ["libcperciva/crypto/crypto_verify_bytes.c"])
p("C32","Endian codecs",
  "The be/le 16/32/64 decode functions invert the encode functions and vice versa, and the encodings are the positional ones.",
  "every integer and every byte string of the right length", ALLIN, ["libcperciva/util/sysendian.h"])
p("C33","Random generator follows HMAC_DRBG",
  "Every successful crypto_entropy_read returns the requested number of bytes as generated by HMAC_DRBG (SP 800-90A) from the seed entropy, splitting requests at 65536 bytes, and at most 256 generate operations happen between (re)seeds; a failure to obtain entropy is reported and no unseeded output is ever returned.",
  "every history of requests and entropy-source outcomes", "Needs long histories and failing entropy sources.", ["libcperciva/crypto/crypto_entropy.c"])
p("C34","Entropy source reads are complete or fail",
  "entropy_read succeeds only if exactly buflen bytes were obtained from the device (in order, across arbitrary short reads) and the device was closed; errors and EOF fail; the descriptor is released on every path.",
  "every schedule of short reads and failures", "Schedules are unbounded.", ["libcperciva/util/entropy.c"])
p("C35","humansize prints the largest representable value not exceeding the size",
  "humansize(size) is '<N> B' (N<=999) or '<X> <prefix>B' with 10<=X<=999 or 1.0<=X<=9.9, and its value is the largest such value <= size, for every 64-bit size.",
  "all 2^64 sizes", "2^64 cases.", ["libcperciva/util/humansize.c: humansize"])
p("C36","humansize_parse accepts exactly its documented grammar",
  "humansize_parse succeeds iff the string matches [0-9]+ ?[kMGTPE]?B? and the value fits in 64 bits, and then returns digits * 1000^k.",
  "every string", "Infinite domain.", ["libcperciva/util/humansize.c: humansize_parse"])
p("C37","Numeric option parsing",
  "PARSENUM stores a value and succeeds iff the string is optional whitespace followed by a number in [min,max] and nothing else. The code violates this for unsigned variables (a negative number that wraps into range is accepted) and for floating point (NaN is accepted by any range). What holds: success implies the stored value lies in range (integers), and for strings without a minus sign the accept condition is exact.",
  "every string, every range", "Infinite domain.", ["libcperciva/util/parsenum.h"])
p("C38","Option parsing follows the documented grammar",
  "The option parser recognises -a, -abc, -cARG, -c ARG, --foo, --foo=ARG, --foo ARG as documented, stops at '--', '-' or the first non-option, never abbreviates, and reports missing/unexpected arguments and unknown options.",
  "every argument vector and option table", "Infinite domain.", ["libcperciva/util/getopt.c","libcperciva/util/getopt.h"])
p("C39","Command-line validation",
  "The program starts an operation only if the whole command line follows the documented grammar: every option is known and has a valid argument in range (logN 10..40, r 1..32, p 1..2048, memory fraction 0..0.5), at most one passphrase method is given, the explicit scrypt parameters are all set or all unset, -m is nonzero, there are one or two file arguments, and the passphrase method that reads standard input only is not combined with standard input as input file. Otherwise it prints a message or the usage, exits with status 1 and has touched nothing. What is started is the operation the command line asks for, with the settings the last occurrence of each option gives.",
  "every argument vector", "Infinite domain.", ["main.c: main","libcperciva/util/getopt.c: getopt"])
p("C40","Passphrase method parsing",
  "--passphrase accepts exactly dev:tty-stdin, dev:stdin-once, dev:tty-once, env:X and file:X, delivering X unchanged. tty-stdin reads the terminal if there is one (leaving standard input alone) and standard input otherwise; tty-once reads only the terminal; stdin-once only standard input; env delivers the variable's value unchanged.",
  "every string", "Infinite domain.", ["lib/util/passphrase_entry.c: passphrase_entry_parse"])
p("C41","Interactive passphrase entry",
  "readpass returns the line up to the first CR/LF; when confirmation is requested it returns only a passphrase entered identically twice in succession; a signal of the caught set takes effect only with the terminal settings as they were found, no signal that arrives is lost, and at return all dispositions and the terminal are as found. The code violates the second clause for lines of 2047 bytes or more (one overlong line confirms itself) and for input containing NUL.",
  "every input history and every arrival of signals", "Histories and signal arrivals are unbounded.", ["libcperciva/util/readpass.c: readpass, resetsigs"])
p("C42","Passphrase file",
  "readpass_file accepts exactly files with fewer than 2048 bytes and no line after the first, returning the text before the line end. The code truncates at the first CR even when it is not followed by LF, contrary to the documentation, and takes a read error after the first line for the end of the file.",
  "every file content and I/O fault", "Infinite domain.", ["libcperciva/util/readpass_file.c: readpass_file"])
p("C43","Key hygiene",
  "On every return path the derived keys, expanded AES key and stream are zeroed/freed. The code violates this on a write error: the expanded AES key is neither zeroed nor freed. Elsewhere it holds.",
  "every execution path, every fault point", "Leaks are invisible to functional tests and need write faults.", [f"{SE}: scryptenc_file, scryptdec_file_copy, scryptenc_buf, scryptdec_buf"])
p("C44","Parameter display",
  "'info' prints the N, r, p of the header and the true memory requirement 128*N*r. The code violates this: a header with log2(N) >= 64 makes the shift undefined, and 128*r is computed in 32 bits so that it is wrong for r >= 2^25 or N*r*128 >= 2^64. It holds for all other headers. Neither the header's checksum nor its signature is verified: the parameters shown are those of any 96 bytes with the scrypt magic.",
  "every header", "Infinite domain.", [f"{SE}: display_params, scryptdec_file_printparams"])
p("C45","Speed estimate is a positive finite number",
  "If the clocks work and key derivation succeeds, the speed estimate terminates with a positive finite double, namely the number of cores performed divided by the elapsed time, which exceeds the clock resolution.",
  "every sequence of clock readings", "Depends on clock behaviour.", ["lib/scryptenc/scryptenc_cpuperf.c","libcperciva/util/monoclock.c"])
p("C46","Distinct passphrases",
  "Distinct passphrases give distinct keys. Violated for API callers: a passphrase shorter than 64 bytes and the same passphrase with trailing zero bytes are interchangeable, as are a passphrase longer than 64 bytes and its SHA-256 digest. Passphrases of at most 64 bytes without NUL bytes map to distinct HMAC key blocks.",
  "every pair of passphrases", "Infinite domain.", [f"{SHA}: HMAC_SHA256_Init_internal, PBKDF2_SHA256",f"{SE}"])
p("C47","Explicit parameters override limits when encrypting",
  "With explicit valid parameters, exceeding the resource limits only produces a warning (memory, time or both, as applicable) and encryption goes on with exactly those parameters; invalid explicit parameters give SCRYPT_EPARAM.",
  "every explicit parameter set and environment", "Depends on system limits.", [f"{SE}: scryptenc_setup, checkparams"])
p("C48","Hardware acceleration selection",
  "A hardware routine is used only if the CPU reports the feature and its self-test passes; failure falls back to software; the choice never changes afterwards.",
  "every CPU behaviour and call history", "Requires faulty hardware.", [f"{SHA}: hwaccel_init, hwtest","libcperciva/crypto/crypto_aes.c: hwaccel_init","libcperciva/cpusupport/cpusupport.h"])
p("C49","Aligned pointer stays inside its buffer",
  "align_ptr yields an address that is a multiple of the alignment and leaves room for the declared number of elements inside the over-allocated buffer.",
  "every buffer address, alignment and element count", "Depends on addresses.", ["libcperciva/util/align_ptr.h"])
p("C50","Decryption cookie life cycle",
  "Over any sequence of prepare/copy/free calls made as documented, each cookie is freed exactly once, and a failed prepare leaves no cookie behind; the one-call form equals prepare, copy, free.",
  "every call history", "Histories are unbounded.", [f"{SE}: scryptdec_file_prep, scryptdec_file_copy, scryptdec_file_cookie_free, scryptdec_file"])
p("C51","The program undoes its own encryption",
  "If `scrypt enc` exits with status 0 having written a file, then `scrypt dec -f` run on that file with the same passphrase - in any later world where nothing fails - exits with status 0 and delivers exactly the original input, however passphrase, input and output are given.",
  "every input, passphrase, command line, world, and division of the streams into pieces", "Infinite domain; end-to-end tests cover a few files.", ["main.c: main, scrypt_mode_enc_dec",f"{SE}: scryptenc_file, scryptdec_file_prep, scryptdec_file_copy"])
p("C52","Normal termination",
  "The program terminates normally (no failed assertion, no undefined behaviour, no endless loop) on every command line, input and fault. The code violates this in four ways: decrypting with explicit parameters and encrypting with -m nan run into failed assertions; -t nan leads to an undefined float-to-integer conversion; info on a header with logN >= 64 to an undefined shift. Otherwise it holds.",
  "every argument vector, input, environment and fault", "Needs all inputs and faults at once.", ["main.c: main",f"{SE}: scryptdec_file_prep, pickparams, display_params","lib-platform/util/memlimit.c: memtouse"])
p("C53","The passphrase is erased",
  "In every run of the program that ends, either no passphrase was obtained, or the object holding it (the string and its terminator) is overwritten with zeros over its whole length and then freed, exactly once, and it is not used afterwards - also when decryption fails, the output cannot be opened, or a write fails.",
  "every command line, world and fault", "Each error path has its own clean-up code; tests neither reach them all nor look at freed memory.", ["main.c: scrypt_mode_enc_dec","libcperciva/util/insecure_memzero.c"])
p("C54","In-place stream encryption",
  "Encrypting or decrypting a stream piece by piece writes the AES-CTR bytes to the output ranges and leaves the rest of memory alone, whether each call's input and output ranges are disjoint or identical, for every division into calls and with or without hardware support. For ranges that overlap otherwise it does not hold.",
  "every memory content, buffer placement and sequence of calls", ALLIN+" Buffer placements multiply with piece sizes.", [f"{CTR}: crypto_aesctr_stream", f"{CTRS}", "libcperciva/crypto/crypto_aesctr_aesni.c: crypto_aesctr_aesni_stream"])
p("C55","Key derivation returns the memory it takes",
  "Every call of the key derivation function, on every parameter set and whichever allocation or unmapping fails, gives back every block it obtained (exactly once, by the matching function), except the table when munmap itself fails; when the computation runs, its three work areas are distinct live blocks of at least the size used, with room for alignment.",
  "every parameter set, configuration and allocation fault", "Allocation failures are not provoked by tests, and leaks are not observed.", [f"{CS}: _crypto_scrypt","lib/crypto/crypto_scrypt-ref.c: crypto_scrypt"])
p("C56","The passphrase dialogue",
  "At a terminal each line read is asked for by its own prompt, with echo switched off before the first prompt and restored after the last line, on every path; away from a terminal nothing is prompted. The program asks 'Please enter passphrase', when encrypting from the default source also 'Please confirm passphrase', starting over with a notice as long as the two differ; with a passphrase from the environment or a file it asks nothing.",
  "every input history, terminal and fault", "Dialogues can go on indefinitely; tests do not use a terminal.", ["libcperciva/util/readpass.c: readpass","lib/util/passphrase_entry.c: passphrase_entry_readpass","main.c: scrypt_mode_enc_dec"])
p("C57","Looser limits never hurt",
  "Raising the memory limit, the memory fraction or the time limit, with the same machine and clock readings, never weakens the parameters chosen for encryption (same r, no smaller N, and no smaller p for the same N), and a decryption that succeeds still succeeds, with the same plaintext, under looser limits.",
  "every pair of limits, machine, clock reading and ciphertext", ALLIN+" Monotonicity of floating-point limit arithmetic is a statement about pairs of runs.", ["lib/scryptenc/scryptenc.c: pickparams, checkparams","lib/util/memlimit.c: memtouse","lib/scryptenc/scryptenc_cpuperf.c: scryptenc_cpuperf"])
p("C58","Verbosity changes only messages",
  "The verbose flag changes nothing but what is printed on standard error: with it or without it every library call returns the same result code, output, parameters and memory state, and the program the same exit status, output file, standard output and sequence of actions.",
  "every call, command line, input, world and fault in which messages can be formatted", "Pairs of runs; any path could be affected.", ["lib/scryptenc/scryptenc.c: display_params, pickparams, checkparams, scryptenc_buf, scryptdec_buf, scryptenc_file, scryptdec_file","main.c: scrypt_mode_enc_dec, main"])
p("C59","Decryption under limits",
  "Without the force flag, decryption of an input whose header is intact and valid first compares the parameters with the limits: it reports exactly 'too much memory', 'too much time' or both when they are exceeded (memory exactly; time up to rounding), and otherwise the outcome is the one the input determines; data is released exactly when the input is an authentic file for the passphrase and the limits admit it. The force flag only relaxes: whatever decrypts without it decrypts, to the same bytes, with it.",
  "every input, passphrase, limits, machine, clock reading and read schedule in which no system facility fails", ALLIN+" The outcome depends on floating-point limit arithmetic and on the order of the checks.", ["lib/scryptenc/scryptenc.c: checkparams, scryptdec_setup, scryptdec_buf, scryptdec_file, scryptdec_file_copy"])
p("C60","Everyday use without options",
  "On a 64-bit machine where nothing fails, 'scrypt enc a b' succeeds, and 'scrypt dec b c' with the same passphrase, with the default limits of both commands, succeeds and makes c equal to a, even if the measured speed at decryption is up to sixty times lower than at encryption (with at least 110 salsa20/8 cores per second).",
  "every input file, passphrase, salt, memory configuration and clock behaviour", "Whether the chosen parameters are admitted again depends on two independent measurements and floating-point limits; tests see one machine.", ["main.c: main, scrypt_mode_enc_dec, parse_args","lib/scryptenc/scryptenc.c: pickparams, checkparams","lib/util/memlimit.c: memtouse","lib/scryptenc/scryptenc_cpuperf.c: scryptenc_cpuperf"])
p("C61","What a verbose run displays",
  "With the verbose flag each library call that gets as far as accepting or refusing the parameters displays exactly one report, before any other message; without the flag none. The report gives the parameters actually used (N, r, p as returned), the memory they need (128 N r, rounded down to the documented form), and - unless limits are not checked - the memory budget, the estimated time (4 N r p operations at the measured speed) and the time limit in force.",
  "every call, parameters, limits, machine, clock reading and outcome", ALLIN+" The displayed figures come from arithmetic on every parameter set, and must agree with what was used on every path.", ["lib/scryptenc/scryptenc.c: display_params, pickparams, checkparams, scryptenc_setup, scryptdec_setup","libcperciva/util/humansize.c: humansize"])
p("C62","Truncated files and interrupted encryptions never yield wrong plaintext",
  "If an encryption to a stream ends early - by any read or write error, or by a crash after which only a beginning of what it wrote survives - then what is left is a beginning of a valid file for a beginning of the input, and an encryption reports success exactly when it has written the whole file. Decrypting any such remnant with the passphrase, in any environment, releases only a beginning of the original data, and reports success only if the remnant is the complete file, or if its last 32 bytes happen to be the HMAC-SHA256 of the bytes before them (a forgery). The same holds for decrypting a truncated file from a buffer.",
  "every input, passphrase, parameter set, sequence of read and write errors, crash point (every prefix of the output) and environment of the encryption and of the later decryption", ALLIN+" Every crash point of every encryption must be covered.", ["lib/scryptenc/scryptenc.c: scryptenc_file, scryptdec_file, scryptdec_file_copy, scryptdec_buf"])
p('C63','Salts over the life of a process',
  "In every sequence of library calls made by a process (encryptions to buffers and streams, decryptions, prepared decryptions, successful or not), the salts of the files made are, in order, disjoint 32-byte pieces of the output of one HMAC_DRBG run that starts uninstantiated, is seeded only with complete reads from the operating system's entropy source (and RDRAND as extra input), and stays within the limits of the standard. Decryptions neither use nor change the generator. So no two files share generator output, and no salt is ever taken from anywhere else.",
  'every history of library calls, every outcome of each, every behaviour of the entropy source', ALLIN+" Reuse of a salt shows only over histories, including those with failed calls in between.", ['lib/scryptenc/scryptenc.c: scryptenc_setup, scryptenc_buf, scryptenc_file, scryptdec_setup', 'libcperciva/crypto/crypto_entropy.c: crypto_entropy_read'])
p('C64','Inspecting a file is harmless and needs only its parameters',
  'scrypt info never asks for a passphrase, never opens or writes an output and derives no key, whatever its input and options; it ends with status 0 exactly if the command line is acceptable, the input can be opened and starts with a readable version-0 header of 96 bytes, and with status 1 otherwise; on success it displays exactly one report, with the parameters of the header and the memory they need. Two runs on inputs that agree in the first 16 bytes do the same, whatever else differs in the inputs and in the machine, clock, entropy or terminal.',
  'every command line, input, chunking, and environment', ALLIN, ['main.c: scrypt_mode_info, main', 'lib/scryptenc/scryptenc.c: scryptdec_file_printparams, scryptdec_file_load_header, display_params'])
p('C65','Option labels: every option reaches its own code',
  'A program that writes a GETOPT loop (one GETOPT_SWITCH with GETOPT_OPT and GETOPT_OPTARG labels, optionally GETOPT_MISSING_ARG, and GETOPT_DEFAULT last) has each option of the command line handled by the code behind the label naming it, with optarg pointing at its argument, in command-line order; an option without its argument goes to GETOPT_MISSING_ARG (or GETOPT_DEFAULT if there is none), an unknown option and an unexpected argument go to GETOPT_DEFAULT; messages are printed only if opterr is set and there is no GETOPT_MISSING_ARG; optind ends at the first non-option argument. This holds for the first loop and for every later one started with optreset set, whatever switch was used before. A switch with a malformed or repeated option string aborts on its first pass, before any label is reached.',
  'every switch (any lines, any labels), every argument vector, every earlier state of the parser', ALLIN+" A test has one switch and a few command lines; the labels are found by running over the line numbers of the source file, so a shifted line is a different program.", ['libcperciva/util/getopt.h:GETOPT_SWITCH', 'libcperciva/util/getopt.h:GETOPT_OPT', 'libcperciva/util/getopt.h:GETOPT_OPTARG', 'libcperciva/util/getopt.h:GETOPT_MISSING_ARG', 'libcperciva/util/getopt.h:GETOPT_DEFAULT', 'libcperciva/util/getopt.c:getopt', 'libcperciva/util/getopt.c:getopt_lookup', 'libcperciva/util/getopt.c:getopt_register_opt', 'libcperciva/util/getopt.c:getopt_setrange', 'main.c:main'])
p('C66','Warnings: one destination, whole text, errno kept',
  'Whatever sequence of warnp_setprogname, warnp_syslog, warnp_syslog_priority, warn, warnx, warnp and warn0 a program makes, with memory failing or not and other calls changing errno in between: each warning is put out exactly once, on standard error or (after warnp_syslog with a non-zero argument) on syslog with the latest priority; on standard error it is the last path component of the latest program name (or (unknown)), the whole text and, for warn and for warnp with errno set, the reason; on syslog the text is cut at 4095 characters; warn and warnx leave errno as it was although the output functions may change it, warnp and warn0 leave it 0; nothing is read or written out of bounds, no freed name is used, and the exit handler leaves no memory behind.',
  'every sequence of calls, every text, program name, errno, error text, memory failure', ALLIN+" The property is about sequences of calls and about texts longer than any a test prints.", ['libcperciva/util/warnp.c:warn', 'libcperciva/util/warnp.c:warnx', 'libcperciva/util/warnp.c:warnp_setprogname', 'libcperciva/util/warnp.c:warnp_syslog', 'libcperciva/util/warnp.c:warnp_syslog_priority', 'libcperciva/util/warnp.c:warnp_atexit', 'libcperciva/util/warnp.h:warnp', 'libcperciva/util/warnp.h:warn0'])
p('C67','Formatted strings: exact block or nothing',
  'asprintf returns the length and a newly allocated block holding exactly the formatted text and its terminator, or -1 with no memory left allocated, whichever of its steps fails and however long the text is; it succeeds whenever memory and formatting do and the length fits an int. The string humansize returns is such a block holding the documented text, or NULL with nothing left allocated.',
  'every text, size below 2^64, heap and failure of vsnprintf or malloc', ALLIN+" Failures between the two formatting passes cannot be provoked by a test.", ['libcperciva/util/asprintf.c:asprintf', 'libcperciva/util/humansize.c:humansize'])
p('C68','Hashing leaves no trace in its own memory',
  "Whatever the stack held before and whatever the block transform in use leaves in its scratch words, SHA-256, HMAC-SHA256 (streaming and one-shot) and PBKDF2-HMAC-SHA256 return the standard value in the caller's buffer and touch nothing beyond it; and on return the finished context and every scratch array and context the function declared (message schedule, key pad, hashed key, inner hash, U, T, the three HMAC contexts) are entirely zero, except PBKDF2's block counter, which holds the number of the last block. Hence the memory PBKDF2 leaves behind is the same for any two passphrases, salts and iteration counts.",
  'all messages, keys, salts, iteration counts, output lengths, chunkings, initial stack contents, accelerated transforms and residues they leave', ALLIN+" A test sees the result, not what remains on the stack afterwards; and a buffer wiped one byte short looks wiped on most inputs.", ['libcperciva/alg/sha256.c:SHA256_Update', 'libcperciva/alg/sha256.c:SHA256_Final', 'libcperciva/alg/sha256.c:SHA256_Buf', 'libcperciva/alg/sha256.c:HMAC_SHA256_Init', 'libcperciva/alg/sha256.c:HMAC_SHA256_Update', 'libcperciva/alg/sha256.c:HMAC_SHA256_Final', 'libcperciva/alg/sha256.c:HMAC_SHA256_Buf', 'libcperciva/alg/sha256.c:PBKDF2_SHA256', 'libcperciva/util/insecure_memzero.c:insecure_memzero_func'])
p('C69','The random generator leaves no seed and no copy of its state behind',
  'Whatever a call of crypto_entropy_read does, when it returns every local array and hash context used on the way (seed buffer, RDRAND buffer, working copies of the key and of V, HMAC contexts and their scratch arrays) is all zeros, except: after a failed read of the system random device (the call then reports failure), the seed buffer holds what that read delivered; after a failed RDRAND attempt, the RDRAND buffer holds the words delivered before the failure. Those leftovers were never used: results do not depend on them. If the system delivers and RDRAND does not fail, everything is left blank. The result is that of the generator of C33.',
  'every history of calls, request size, stack content, transform routine, behaviour of the system random device and of RDRAND', ALLIN+" Memory no result depends on is invisible to a test; it must be blank on every path, for every content it had.", ['libcperciva/crypto/crypto_entropy.c: crypto_entropy_read, instantiate, reseed, update, update_from_rdrand, generate', 'libcperciva/util/entropy.c: entropy_read', 'libcperciva/crypto/crypto_entropy_rdrand.c: generate_seed_rdrand', 'libcperciva/alg/sha256.c: HMAC_SHA256_Init, HMAC_SHA256_Update, HMAC_SHA256_Final, HMAC_SHA256_Buf'])
p('C70','What encryption and decryption leave in their own memory',
  "When scryptenc_buf, scryptdec_buf, scryptenc_file or scryptdec_file returns, whatever the outcome: every scratch array of the hash functions they called is all zeros; the derived keys are overwritten with zeros (or, when the input was refused before any key was derived, were never written); the SHA-256 contexts and the HMAC contexts of the header are as found or blank, and blank after a success; the local copies of header, salt and hash values are as found or parts of the encrypted file; the buffer through which scryptenc_file reads its input is, at its end, only overwritten by parts of the encrypted file (no plaintext stays there). After a success the HMAC context of the whole file is blank. Exceptions, stated: after a wrong passphrase the hash buffer holds the HMAC that did not match; after a wrong file HMAC (SCRYPT_EINVAL) likewise; after a read or write error in the stream functions the file's HMAC context is not erased; scryptdec_file leaves plaintext in its buffer.",
  'every input, passphrase, parameters, outcome, environment, read and write schedule, initial memory content, transform routine', ALLIN+" Memory no result depends on is invisible to a test; it must be as stated on every path, for every content it had.", ['lib/scryptenc/scryptenc.c: scryptenc_setup, scryptdec_setup, scryptenc_buf, scryptdec_buf, scryptenc_file, scryptdec_file_prep, scryptdec_file_copy, scryptdec_file', 'libcperciva/alg/sha256.c: SHA256_Init, SHA256_Update, SHA256_Final, HMAC_SHA256_Init, HMAC_SHA256_Update, HMAC_SHA256_Final'])
p('C71','Buffer functions with overlapping input and output',
  "The header documents no restriction on where input and output of scryptenc_buf and scryptdec_buf lie. With both in one memory: scryptenc_buf behaves exactly as with two separate buffers whenever the first 96 bytes of the output and the input share no byte and the output does not start inside the input's later part, that is, when the input ends at or before the output or starts at or after the output's byte 96; in particular it encrypts in place when the data already stands where its ciphertext goes, and the memory then holds the encrypted file, everything outside it unchanged. scryptdec_buf behaves exactly as with two separate buffers when output and input share no byte. Decrypting a valid file onto itself, with the output starting at or before the ciphertext, puts the plaintext in place and changes nothing else, but the call returns SCRYPT_OK only if what then stands in the place of the file still carries a matching tag, and SCRYPT_EINVAL otherwise: onto its own ciphertext, exactly if header and plaintext have the same HMAC as header and ciphertext.",
  'every input, passphrase, parameters, memory content and placement (of the stated kinds), environment, outcome', ALLIN+" A test checks one placement; whether the tag is computed before or after the output overwrites the input depends on it.", ['lib/scryptenc/scryptenc.c: scryptenc_buf, scryptdec_buf', 'libcperciva/crypto/crypto_aesctr.c: crypto_aesctr_stream'])
p('C72','Encrypting a buffer onto itself loses it',
  'scryptenc_buf called with the data starting at the output buffer, or up to 80 bytes behind it (in particular with input pointer = output pointer), reports success whenever it would with separate buffers, with the same messages, parameters and other effects; but the file it leaves, although valid for the passphrase, does not depend on the data at all: whatever the data was, the resulting memory is the same, and decrypting it succeeds and returns the same wrong content. (The data can be encrypted in place only by placing it where the ciphertext goes, C71.)',
  'every data, passphrase, parameters, memory content, distance from 0 to 80, environment, AES implementation', ALLIN+" A test shows one lost message; that nothing of any message survives on any implementation is a statement about pairs of runs.", ['lib/scryptenc/scryptenc.c: scryptenc_buf', 'libcperciva/crypto/crypto_aesctr.c: crypto_aesctr_stream', 'libcperciva/crypto/crypto_aesctr_shared.c: crypto_aesctr_stream_pre_wholeblock, crypto_aesctr_stream_post_wholeblock', 'libcperciva/crypto/crypto_aesctr_aesni.c: crypto_aesctr_aesni_stream', 'libcperciva/crypto/crypto_aesctr_arm.c: crypto_aesctr_arm_stream'])
p('C73','Input and output anywhere in memory',
  'Wherever in one memory the input and output of crypto_aesctr_stream, scryptenc_buf and scryptdec_buf lie - also overlapping in ways the documentation forbids for the cipher - the call reads and writes only inside its buffers, changes no byte outside its output, and reports and does everything else exactly as on separate buffers: scryptenc_buf with the same status, messages, parameters and random state; scryptdec_buf likewise, except that once the plaintext has been written the status is SCRYPT_OK exactly if what then lies in the place of the file has a matching tag, and SCRYPT_EINVAL otherwise. What is written is the correct encryption (for scryptenc_buf a valid encrypted file, which decrypts with the passphrase) of the bytes the call saw, and each byte it saw is the one in the input before the call, or, only if the call had already written to that place by the time of reading it, possibly the one it left there. In particular, when nothing is read behind where the call has written, the result is the correct one.',
  'every memory, placement and length, passphrase, parameters, environment, AES implementation, and every sequence of calls on a cipher stream', ALLIN+" The implementations read in pieces of 1 or 16 bytes and so differ on overlapping buffers; that none of them leaves the buffers or yields something that is not an encryption of what it read has to hold for each alignment of stream position, input and output.", ['lib/scryptenc/scryptenc.c: scryptenc_buf, scryptdec_buf', 'libcperciva/crypto/crypto_aesctr.c: crypto_aesctr_stream', 'libcperciva/crypto/crypto_aesctr_shared.c: crypto_aesctr_stream_cipherblock_use, crypto_aesctr_stream_pre_wholeblock, crypto_aesctr_stream_post_wholeblock', 'libcperciva/crypto/crypto_aesctr_aesni.c: crypto_aesctr_aesni_stream', 'libcperciva/crypto/crypto_aesctr_arm.c: crypto_aesctr_arm_stream'])
p('C74','A wrong passphrase is refused without a trace',
  "What was encrypted with one passphrase is not decrypted with another: unless the two passphrases derive, from the file's header, authentication keys giving the header the same HMAC tag, decryption fails in every environment; by the buffer function with SCRYPT_EPASS or a resource or system failure, never with 'not a valid file', and with SCRYPT_EPASS exactly when resource checks are off and nothing fails; the caller's output buffer, length and output stream are unchanged; the program exits with status 1 and neither opens nor writes the output. Acceptance would need equal tags both on the header and on the whole file.",
  'every pair of passphrases, header, content, environment, fault, schedule of reads and command line', ALLIN+" A test tries some wrong passphrases; that none at all gets through, short of a tag collision, is a statement about all pairs.", ['lib/scryptenc/scryptenc.c: scryptdec_setup, scryptdec_buf, scryptdec_file', 'main.c: main'])
p('C75','The same file as input and output',
  "When scrypt is given the same name as input and output file: encryption discards the file's old contents whatever they were (success leaves the encryption of the empty input, and the outcome does not depend on what was in the file; if the C library did not buffer the 96 header bytes, it would never end, encrypting its own output); decryption leaves the file untouched whenever the header is refused (not a scrypt file, wrong passphrase, limits), replaces a valid file that the first read takes in completely by exactly its data, and, for a valid file larger than the header plus one read, never reports success short of an HMAC forgery and leaves, with nothing failing, only a beginning of the data shorter than one read.",
  'every file content, passphrase, environment, sizes of the reads the C library makes, and amounts by which it delays writes (for encryption: at least the 96 header bytes)', ALLIN+" The outcome depends on file size and on how the C library buffers; a test sees one buffer size and a few files.", ['main.c: scrypt_mode_enc_dec', 'lib/scryptenc/scryptenc.c: scryptenc_file, scryptdec_file_prep, scryptdec_file_copy, scryptdec_file_load_header'])
json_lines = [json.dumps(x, ensure_ascii=False) for x in P]
open(os.path.join(os.path.dirname(__file__),"..","properties.jsonl"),"w").write("\n".join(json_lines)+"\n")
print(len(P))
