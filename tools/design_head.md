# Formal model of Tarsnap/scrypt in Rocq (Coq 8.16.1)

Everything lives in `rocq/theories/`.  The theorems are about a Gallina model of
the C code in `/repo`.  The tie between model and code is reading: every
definition of an `M_*.v` file cites the file and lines it models.

## 1. Layers

| layer | files | content |
|---|---|---|
| base | `Base.v` | bytes/words as `N` with explicit `mod 2^k`, buffers as `list N`, the outcome monad `res` (`Ok` / `UB` / `Abort`), checked reads and writes |
| specifications | `Spec*.v` | FIPS 180-4, RFC 2104/8018 (`SpecSHA`), RFC 7914 (`SpecScrypt`), FIPS 197 (`SpecAES`), SP 800-90A (`SpecDRBG`), FORMAT (`SpecFormat`), the command-line and option grammars (`SpecCLI`, `SpecGetopt`), number syntax (`SpecNumber`), messages (`SpecText`), passphrase rules (`SpecPass`), API contracts (`SpecScryptAPI`, `SpecScryptenc`, `SpecStream`, `SpecDouble`).  Written from standards and documentation, not from the code |
| models | `M_*.v` | the C functions, one Gallina function each, with citations |
| proofs | `P_*.v` | lemmas |
| properties | `Prop_*.v` | the property theorems, each followed by concrete cases meeting its hypotheses (`*_hyps`, `*_case`), and `Print Assumptions` of the whole file |

Undefined behaviour (out-of-bounds access, oversized shift, signed overflow,
out-of-range float-to-integer conversion, division by zero, use or free of a
key object that is not allocated, printing NULL) is the outcome `UB`; `assert`
failure and `abort()` are `Abort`.  Theorems conclude `= Ok ...`, so they
include absence of both.  Loops of the C code that are not structurally
bounded run on fuel; running out of fuel is `UB`, so `= Ok` also includes
termination.  Uninitialised memory is read from an arbitrary function `junk`
over which every theorem quantifies.

System behaviour (memory limits, clock readings, entropy, malloc/mmap failures,
fread/fwrite/fclose results, tty lines, signals, cpuid, environment variables)
enters as universally quantified oracle arguments.

## 2. What is modelled

| code in /repo | model |
|---|---|
| libcperciva/util/sysendian.h | `M_endian` |
| libcperciva/crypto/crypto_verify_bytes.c | `M_verify` |
| libcperciva/util/align_ptr.h, alignment fall-back of crypto_scrypt.c | `M_align` |
| libcperciva/alg/sha256.c (streaming, HMAC, PBKDF2, software transform) | `M_sha256_tr`, `M_sha256`, and with the memory of its contexts and temporaries `M_sha256_mem` |
| libcperciva/alg/sha256_sse2.c, sha256_shani.c, sha256_arm.c | `M_sha256_hw` |
| lib/crypto/crypto_scrypt_smix.c, _smix_sse2.c, crypto_scrypt-ref.c, lib-platform/crypto/crypto_scrypt.c | `M_smix`, `M_scrypt_sel` |
| libcperciva/crypto/crypto_aes_aesni.c, crypto_aes_arm.c | `M_aes_hw` |
| libcperciva/crypto/crypto_aes.c, crypto_aesctr*.c | `M_aesctr`, and again over one memory with two pointers `M_aesctr_mem` |
| allocation and release in lib-platform/crypto/crypto_scrypt.c, lib/crypto/crypto_scrypt-ref.c | `M_scrypt_alloc` |
| libcperciva/util/insecure_memzero.c | `M_memzero` |
| libcperciva/util/entropy.c, libcperciva/crypto/crypto_entropy.c, crypto_entropy_rdrand.c | `M_entropy`, and with the memory of the generator `M_entropy_mem` |
| libcperciva/util/monoclock.c, lib/scryptenc/scryptenc_cpuperf.c | `M_cpuperf` |
| lib-platform/util/memlimit.c | `M_memlimit` |
| lib/scryptenc/scryptenc.c | `M_params`, `M_scryptenc`, `M_msg_text`, and with its local arrays and hash contexts as memory `M_scryptenc_mem`, with input and output in one memory `M_scryptenc_ovl`, and with input and output one file `M_samefile` |
| lib/scryptenc/scryptenc_print_error.c | `M_print_error` |
| libcperciva/util/warnp.[ch] (syslog mode included), asprintf.c | `M_warnp`; `M_print_error` has the standard-error form the program uses |
| libcperciva/util/humansize.c, parsenum.h | `M_humansize`, `M_parsenum` |
| libcperciva/util/getopt.[ch] | `M_getopt` (scanning), `M_getopt_sw` (static state, the GETOPT_SWITCH labels and their line numbers) |
| libcperciva/util/readpass.c, readpass_file.c, lib/util/passphrase_entry.c | `M_readpass` |
| libcperciva/cpusupport/*, hwaccel_init of sha256.c / crypto_aes.c / crypto_aesctr.c | `M_hwaccel` |
| main.c | `M_main` |

Whole-program and history properties: `Prop_main`, `Prop_cli`, `Prop_unforced`
and `Prop_plain` are about `main`; `Prop_history` is about arbitrary sequences of
library calls in one process; `Prop_crash` about encryptions interrupted after any
write and about every truncation; `Prop_inspect` about info runs; `Prop_monotone`
compares two runs.  `Check_format.v` evaluates the model on a known file while
compiling; it is a test of the model, no property rests on it.

`M_simd` (vector registers), `M_stdio` (ISO C streams), `M_strto` (strtoimax,
strtoumax) and `M_double` (IEEE doubles) model what the code runs on, not code
of /repo.

### Not modelled
* tests/, perftests/, the build system, `libscrypt-kdf` packaging, and the code of libcperciva that scrypt does not link.
* Real erasure of memory by an optimising compiler: `insecure_memzero` is modelled by its effect.  What the code does not erase is stated, not hidden: after a read or write error scryptenc_file and scryptdec_file_copy leave the file's HMAC context, scryptdec_file_copy leaves plaintext in its buffer, a failed check leaves the HMAC that did not match (C70); the memory areas of crypto_scrypt (B, XY, V) are freed without being erased, and no theorem says otherwise.
* Timing.  C31 states which bytes are read, not how long it takes.
* errno texts are opaque; warnings of readpass and main are recorded without the errno suffix and program name.
* setjmp/longjmp as such: a jump back to GETOPT_SWITCH is the next turn of the initialisation loop of `M_getopt_sw`.
* What exactly buffer functions leave when the output starts less than 16 bytes ahead of where it is read (there the result depends on the AES implementation); C73 states what holds for every placement, C54, C71 and C72 the exact results for the others.
* Big-endian hosts: vector registers and the copying of RDRAND words are little-endian; the rest of the code reads and writes integers byte by byte.

## 3. Trusted base
* Coq 8.16.1's kernel (with `vm_compute`), and the reading of the C code.
* Axioms: `Print Assumptions` is run at the end of every `Prop_*.v`.  Theorems that do not involve floating point are *Closed under the global context*.  Those that do depend, through Flocq, on the standard library's axioms of the reals and nothing else: `ClassicalDedekindReals.sig_not_dec`, `ClassicalDedekindReals.sig_forall_dec`, `FunctionalExtensionality.functional_extensionality_dep`, `Classical_Prop.classic`.  Section 5 lists them per theorem.
* Intrinsics: `M_simd.v` and the instruction definitions in `M_sha256_hw.v` and `M_aes_hw.v` follow the Intel and Arm manuals.
* OpenSSL's AES is FIPS 197 (AES_set_encrypt_key / AES_encrypt).
* C: LP64 or ILP32-like `size_t` as parameter `szb` where it matters, two's complement, 8-bit bytes, IEEE binary64 `double` without excess precision (FLT_EVAL_METHOD 0), round to nearest.
* ISO C/POSIX: `M_stdio` allows every chunking, error and end-of-file placement; a read interrupted by a signal is a read error.  strtod and printf's `%.1f` are arbitrary functions.
* The measuring loops of scryptenc_cpuperf run on a finite list of clock readings; if the list ends before the clock has advanced, the clock counts as failing.

## 4. How the theorems were tested
`seeded/mutations.py` lists realistic bugs (definition, edit, claim broken);
`tools/mutate.py` applies each to a scratch copy of the model, rebuilds and
records which theorems no longer go through.  `seeded/LOG.jsonl` has one line per
attempt, including the theorems that had to be tightened.

