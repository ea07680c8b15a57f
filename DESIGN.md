# libulz formal model: design

Source: rofl0r/libulz, read as text from /repo.  The C code is not built or run.
Everything is in Rocq/Coq 8.16.1, standard library only, under `rocq/theories`
(logical name `Verif`).

## 1. Conventions of the model

* **Outcome monad** (`Base.v`).  Every function that can misbehave returns
  `out A := Ret a | UB | Fuel`.  `UB` is any undefined behaviour the model can
  see: out-of-bounds access, NULL dereference, signed overflow, division by zero,
  bad shift.  `Fuel` means that a loop's fuel ran out; every positive theorem says
  `= Ret ...`, so it excludes both.  Real non-termination is stated as
  "for every fuel the result is `Fuel`".
* **Numbers** are `Z`.  Wrap-around of unsigned types (2^8, 2^32, 2^64) is
  explicit at the points where it can happen.  Overflow of signed types is `UB`
  when it can happen.  `int` is 32 bits, `long`/`size_t`/pointers 64 bits, `char`
  signed (x86-64 Linux).
* **Memory** is a set of disjoint buffers, each a `list Z` of byte values.  Reads and
  writes are bounds-checked; outside is `UB`.  Fresh memory has arbitrary
  content: it comes from an oracle argument, never assumed zero unless `calloc`.
  Since writes return the whole new buffer, theorems speak about every byte, also the
  ones which must stay untouched.
* **Allocation**: an oracle decides success and fresh contents.
* **System calls** (read, write, lseek, pipe, fork, dup2, close, nanosleep, glob,
  mkdir, ...) are small state machines or oracles described in the model files and listed
  in section 3.
* Each module has `M_x.v` (model with citations of file and lines), `S_x.v`
  (independent specification), `P_x.v` (lemmas), `T_x.v` (property theorems only,
  each closed with `exact`, followed by a non-vacuity `Example` and
  `Print Assumptions`).

Naming: `cNN_...` proves the property in full; `cNN_..._partial` proves it
under the guard named in the comment; `cNN_..._refuted` shows by a witness that the
full statement is false of the code.

## 2. Plan per property

| property | modelled | how proved |
|---|---|---|
| C01 C02 | sblist struct (itemsize, blockitems, count, capa, byte block), get/set/grow/add/insert/delete/pop/addi with size_t arithmetic; realloc oracle | refinement invariant block = concat of items ++ junk; induction over the operation list |
| C03 C04 | the binary-search loops over an item reader that fails out of range | loop invariant, fuel = length bound; sortedness spec via positions |
| C05 C06 | new_from_data; the addresses passed to free | witness for refutation, positive part for reading |
| C07 | iteration macros as loops with a body state transformer | induction on the remaining items |
| C08 C09 | tglist/tgilist macros over an item type, capacity and slots explicit | refinement as C01 |
| C10 C11 | bmap over the tglist model, bsearch as a specified oracle | invariant: keys strictly sorted, same length; map spec as a function of history |
| C12 C13 | hbmap: array of bmaps, packed iterators in Z with 64-bit wrap | reduction to C10 per bucket; enumeration of positions |
| C14 C15 C16 | treap as inductive tree with stored counts mod 2^32 and priorities; mrand | inorder traversal refinement; heap invariant; induction on op list |
| C17 C18 | array of optional buckets | induction on history / on position |
| C19 | linear search loops | induction |
| C20-C22 | split/replace loops on a byte buffer with explicit pointers and size_t | loop invariants against a recursive splitting spec |
| C23-C27 | stringptr functions on byte lists | loop invariants |
| C28-C31 | base64 loops on dst buffers | group-of-three induction; 6-bit lemma by finite computation lifted to all |
| C32-C39 | number/hex/ip conversion loops | digit-expansion spec, induction on digits |
| C40 C41 | search loops | invariants; refutations by computed witness |
| C42 | char predicates | case analysis over the whole range |
| C43 | RC4 state machine | equality with list-level spec; xor involution |
| C44 | table construction and slicing-by-4 update | linearity of the bit-serial step over xor |
| C45 C46 | block functions, buffering, padding | block function equal to a separately written round specification; buffering invariant |
| C47-C50 | path scanners | invariant tying the output buffer to the component stack |
| C51-C54 | file as byte list with position; read/lseek/write | invariant on position; schedules as oracle lists |
| C55-C57 | vsnprintf state machine over format bytes and an argument list | invariant against an unbounded reference output |
| C58 C59 | line-array scans | first-match specs |
| C60 | argv scans | first-match specs |
| C61 C62 | bitmap bytes, pool index arithmetic | invariant avail/live set; induction on history |
| C63-C65 | macros on Z | bitwise reasoning |
| C66 C67 | descriptor table machine with pipe/fork/dup2/close | case analysis over the fault points; general lemmas on lowest free descriptor |
| C68 C69 | nanosleep oracle, integer arithmetic | induction on interruptions; lia |
| C70 C71 | glob/mkdir/random oracles, buffers | loop invariants |
| C72 C73 | output as byte trace | induction on arguments |

## 3. Trusted base

* The Coq 8.16.1 kernel (`coqc`; `coqchk -o` run before milestones).  No plugin, no axiom, no
  switched-off check.
* The hand translation from C to Gallina in `M_*.v` (each definition cites file and lines).
* The specifications in `S_*.v`, and the definitions in `D_*.v` by which theorems observe a model state.
* The output of `Print Assumptions` for every theorem is in section 4.

Common to all modules and **not modelled**: the C compiler and libc as such (libc functions are written
down in the model: strlen, strcmp, memcmp, memcpy, memmove, fgets; or are oracles: malloc, realloc,
bsearch, glob, mkdir, rand, read, write, ...), threads (but for `M_crcthr`), signals, aliasing between distinct arguments
unless a theorem says so, alignment, NULL arguments except where the code tests for NULL, the address
of stack buffers, errno except where it decides something.

Per module, modelled / left out:

| model | modelled | simplified or left out |
|---|---|---|
| `M_sblist` | all functions of src/sblist with size_t arithmetic; realloc and its failure | allocation of the struct itself; `sblist_sort` (only calls qsort) |
| `M_tglist` | the macros of tglist.h, tgilist.h on slots | slots hold one value each; C116 relates this to the byte layout |
| `M_bmap` | bmap.h, hbmap.h with packed 64-bit iterators | the temporary fields; bsearch is an oracle meeting its C specification; hash functions agree on equal keys |
| `M_tlist` | the treap, counts modulo 2^32, mrand, addresses passed to free | the payload is abstract; allocation of the list struct |
| `M_tldeep` | tlist_free_items_deep and tlist_free_deep, tlist.c 169-171, 183-185 | as `M_tlist` |
| `M_hashlist` | buckets as sblists (the model of `M_sblist`), iterator | allocation of the table |
| `M_stringptr` `M_spl` `M_spfile` | src/stringptr, src/stringptrlist, src/kvlist, getfilesize | stringptrlist is used through the specification C01/C02 of sblist; regular files; freeing of entries |
| `M_base64` `M_hex` `M_num` `M_ip` `M_str` `M_rc4` | src/strlib | nothing essential |
| `M_crc32` `M_md5` `M_sha512` | table construction, update, final | static tables start as zeros; unsigned sums are reduced once instead of after every addition (equal) |
| `M_fileparser` | readline, getline, next line length | a regular file whose reads are complete or fail; no other writer |
| `M_fpfail` | next line length when read or lseek fails | the failing calls are given in advance, one triple per piece of 1024 bytes |
| `M_filelib` | normalizepath(_cstr), getpathdiff, getFileExt, getfilename | that `normalizepath_cstr` forms the pointer out - 1 is not counted as undefined |
| `M_format` `M_fmtuse` | ulz_vsnprintf and its callers | va_list is a typed list; overflow of the result beyond ssize_t; localtime_r does not fail |
| `M_ini` `M_opt` | src/iniparser, src/optparser | the stringptrlist is a list; arguments are separate buffers |
| `M_bitarray` `M_endian` `M_endianbe` | macros on unsigned char / byte order macros, `M_endianbe` on both byte orders and on an int | mixed byte orders |
| `M_ssalloc` `M_guard` | pool arithmetic; page map with mmap/mprotect oracles | DEBUG output; element contents |
| `M_time` | nanosleep as a list of events | clocks |
| `M_log` `M_logio` `M_mktemp` | write(2) as events, in `M_logio` with every result and errno; rand stream and mkdir results | contents of the message table of strerror (a parameter) |
| `M_filelist` | pattern construction and listing | glob(3) is an oracle; freeing; the pattern semantics in `S_filelist` has no rule for leading periods |
| `M_proc` | descriptor table with lowest-free allocation, pipe, dup2, close, file actions | close-on-exec, exec itself, setsid |
| `M_heap` `M_own` `M_ownmap` `M_ownfl` | which blocks sblist, tglist, tgilist, hashlist, bmap, hbmap, stringptrlist, stringlist.h, stringptr_replace, filelist allocate and free; every allocation may fail (a script of answers) | an address is given out once only, so that a double free is always seen; realloc that grows returns a new block; sizes and contents are in the other models, items are abstract |
| `M_ex` | examples/hex.c, diff.c, the JAMCRC and block loop of crc32_printer.c, find_identical_files.c | argument handling of main; the directory tree is given by functions (listing, size, content); files can be opened; forming a pointer before the file is not counted as undefined |
| `M_fitree` | examples/find_identical_files.c process_path on directory trees | a tree is a finite list of entries; the value a caller sees after the missing return is an arbitrary function of the two paths; memory does not run out |
| `M_sort` | src/sblist/sblist_sort.c, tglist_sort in include/tglist.h | libc qsort is an argument giving the resulting order of the elements |
| `M_codedup` | examples/codedup.c | option parsing; allocations succeed; the map is a list of bindings walked in any order; a failing assert is undefined; int values below 2^31; progress output left out |
| `M_cdmap` | examples/codedup.c lines 23-27, 45, 85-88, 115-188 with the map of hbmap.h (1024 buckets) | as M_codedup, but the map is that of M_bmap; a pointer from tglist_new is a number |
| `M_iniuse` | the calls of examples/iniparser_test.c | the list of lines takes every line; malloc of the copy is an oracle |
| `M_find` | examples/filelist_find_test.c, filelist_find_test2.c | glob(3) is an oracle serving an unchanging tree; allocations succeed; writes are complete |
| `M_crcmain` | main of examples/crc32_printer.c | fread gives all it can; atoi is an argument; a failing assert is undefined |
| `M_strswitch` | the case lists of include/strswitch.h | characters are their ASCII codes |
| `M_fpuse` | fileparser_open, fileparser_close, examples/fileparser_test.c | descriptor table as in `M_proc`; puts is libc's; close succeeds |
| `M_fpshort` | fileparser_readline_userbuf on reads that deliver less than there is | no call fails; 0 is only delivered at the end of the file |
| `M_alias` `M_aliassort` | sblist_set/add/insert with a pointer into the list's block, tglist/tgilist add and insert with an item expression reading the list, tglist_insert_sorted with an own item | overlap in memcpy and use of the block after realloc are UB |
| `M_stdio` | the fprintf, puts and perror macros of include/stdio-repl.h | whether two string literals have the same address is a parameter |
| `M_crcthr` | CRC32_InitTables and CRC32_Update as the sequence of their reads and writes of the static tables, interleaved | sequential consistency, one word per step; no data-race UB of C11 |
| `M_tltest` | tests/tlist_test.c in its default mode (both lists) with size N; the same calls on an sblist and a tlist | results of rand, realloc and malloc are parameters; the output of the balance is left out |
| `M_sstest` | include/ssalloc.c with DEBUG and the content of the blocks; tests/ssalloc_test.c with pool size, element size and checked index as parameters | the parity of each rand() is a parameter; the output is left out; abort and a failed assertion are one outcome |
| `M_fini` | include/tglist.h tglist_free_values, include/tgilist.h tgilist_free_values, include/bmap.h bmap_fini, include/hbmap.h hbmap_fini | free is recorded as a list of pointers; a macro argument for the flags is the list of the operands of its \|; using a map after bmap_fini is left out |
| `M_bench` | tests/bmap_bench.c and tests/hbmap_bench.c without USE_KHASH: test_bmap, test_bmap_int | N_ITEMS, N_SEEKS, rand, allocation outcomes and the text of %d are parameters; strdup succeeds; a pointer to a string stands for the string; printf and the outer loop are left out |
| `M_ininext` | tests/iniparser_test_nextsection.c | the list takes every line; freeing at the end is left out; ulz_printf as in `M_fmtuse` |
| `M_lstest` | tests/sblist_test.c, tests/tglist_test.c, tests/sptrlist_test.c | DATASIZE, rand(), allocation outcomes and the first byte of the block disturber are parameters; free and malloc of disturber otherwise left out; atoi and a missing argument are left out; abort is one outcome |
| `M_tgishort` | include/tgilist.h with a signed index type; tests/tgilist_insert_test.c 99-120 | conversion of a value that does not fit the index type is modulo, as gcc defines it; the struct from calloc is there; the number of values of the loop is a parameter |
| `M_shatest` | tests/sha512_test.c; src/sha512/sha512.c 139-165 (crypto_hash) | the random numbers, the uninitialised locals, the results of open, read and malloc are parameters; printed lines are reduced to the hash or the complaint; SHA512 contexts as in `M_sha512` |
| `M_hashtest` | tests/md5_test.c, md5str_test.c, rc4_test.c, crc32_test.c, raw2hex_test.c | each program yields the list of the outcomes of its asserts (it would stop at the first false one); uninitialised arrays are parameters; strcmp and memcmp as in `M_shatest`; printing is left out except rc4_test's output for its argument |
| `M_tlcost` | getitem and tlist_get of tlist.c 52-60, 128-130 once more with the number of nodes visited | nothing else differs from `M_tlist`; the erasure is proved |
| `M_tlcost2` | split, merge, insert, remove, tlist_insert and tlist_delete of tlist.c 29-50, 62-93, 132-151 once more, giving the number of recursive calls | the trees themselves are those of `M_tlist`; the allocation succeeds |
| `M_bscost` | the loops of sblist_bsearch.c, sblist_insert_sorted.c and tglist.h 179-206 once more with a log of the positions compared | nothing else differs from `M_sblist`/`M_tglist`; the erasure is proved |
| `M_small` | src/filelib/getfilemodtime.c, MIN and MAX of include/macros.h, examples/stringptr_test1.c | stat is an oracle; the arguments of the macros are state transformers, the left one evaluated first |
| `M_tgbytes` | the macros of tglist.h on the bytes of the block | an item is its list of bytes; the block is a list of bytes; fresh memory from realloc has arbitrary contents; the comparison function is pure |
| `M_psp` | src/filelib/normalizepath_cstr.c compiled with PSPLIKE_PATH | same conventions as normalizepath_cstr in `M_filelib` (string positions as offsets, the output a byte list); the variant is not built by default |
| `M_splmem` | src/stringptrlist/stringptr_splitc.c, stringptr_splits.c, stringptr_replace.c with failing allocations | the list of pieces is its entries and its room (sblist through its specification C01/C02); outcomes of its allocations are a script of booleans; the malloc of the result as in `M_stringptr` |
| `M_inimem` | examples/iniparser_test.c 10-15 and tests/iniparser_test_nextsection.c 7-17 with failing allocations of the line list | as `M_iniuse`, `M_ininext` and `M_splmem`; reading the count of a list that is NULL is UB; printing and freeing left out |
| `M_tgibytes` | include/tgilist.h on the bytes of its index and value block | as `M_tgbytes`; unsigned index types of n bytes, little or big endian |
| `M_selftest` | the test programs at the end of src/strlib/itoa.c, utoa.c, hex2raw.c, src/filelib/mktempdir.c, normalizepath_cstr.c and src/proclib/process.c | the result is the exit code and the bytes printed; the arrays start with arbitrary contents; in process.c the child's answer and exit status come from outside; fgets is modelled by its specification (at most 63 bytes up to the newline, then a NUL); the file's line ends where its page ends, so a read behind it is UB |
| `M_listtest` | tests/sblist_insert_test.c, sblist_delete_test.c, hashlist_test.c, tglist_delete_test.c, tglist_insert_test.c, tgilist_insert_test.c | a test is its sequence of calls and assertions; the list structs exist; the frees at the end are left out; in tgi_strtest every strdup succeeds |
| `M_strtest` | tests/base64_test.c, ipv4fromstring_test.c, normalizepath_test.c, numberToString_test.c, spformat_test.c, stringptr_replace_test.c | the calls of libc's snprintf in spformat_test (lines 13-14, 45-47) are left out, buf is arbitrary after them; stringptr_free in stringptr_replace_test is left out, and the list inside stringptr_replace gets its memory |
| `M_guardtest` | tests/guard_alloc_test.c | a store is only its effect on the process: SIGSEGV unless the page is mapped for writing; fork and waitpid are oracles |

### Mutation tests

`seeded/LOG.jsonl` has one line per wrong program tried.  The model is edited, and the files that depend on
it are compiled again.  `failed` lists the theorems whose proof no longer checks.  This is weaker than
showing that the theorem is false of the edited model: a proof can also break because it follows the shape
of a definition.  The control edit of `get_loop` (`sz arg + 0 * i` for `sz arg`) shows this.  It does not
change the meaning, and yet the proofs about it fail.  So an entry with an empty `failed` is evidence
that no theorem notices the edit (or that it is equivalent, as its note then says), while a non-empty one
is only evidence that the theorems depend on the edited code.  Where an `Example` beside the theorem
computes the wrong answer the edit is certainly noticed.

Therefore many of the entries were audited in a second way.  For each module below, the statements of its
theorems were written out as a Boolean function over a finite set of inputs, with the specification written
again as a program.  It computes to `true` of the model.  Where it computes to `false` of the edited model,
a theorem is false of that model, and the entry in the log has a note that begins with `SEMANTIC`.
The theorems of a module are checked together, so where several are listed at least one of them is false.
Audited this way: the lists of flexible names, option parsing, `read_stdin_line`, `std_closed`, path
normalization, base64, hex, RC4, numbers, string pointers, ini files, `sblist`, bit arrays and byte order,
IPv4 addresses, the string helpers, the stack
allocator, `hashlist`, `getpathdiff` and `getFileExt`, `tglist` and `tgilist`, sorting and sorted insertion, CRC32,
SHA-512, MD5, `tlist`, `bmap` and `hbmap`, string splitting and lists, `fileparser`, `ulz_snprintf`, codedup, `mktempdir` and `filelist_search`.
Seven earlier kills turned out to be wrong and have a note with the word `CORRECTION`: three are equivalent edits,
and four were broken proofs of theorems true of the edited model.  They led to `c58_next_any`, `c09_store_size`, the theorems on
the deep frees of `tlist`, `c71_shm_exact` and `c70_memory_exact`.  One edit of SHA-512 matters only from 2^60 bytes on, where nothing can be computed.  The entries of the other modules
were not audited.  These computations are tests of the theorems and prove nothing themselves.

## 4. Print Assumptions

`Print Assumptions` follows every theorem in the `T_*.v` files.  For each of the 651 theorems
below its output is `Closed under the global context`: no axioms, neither own ones nor
the standard library's.

* `T_alias.v`: `c94_sblist_set_partial`, `c94_sblist_set_self_refuted`, `c94_sblist_set_beyond`, `c94_sblist_add_partial`, `c94_sblist_add_grows_refuted`, `c94_sblist_insert_partial`, `c94_sblist_insert_refuted`, `c94_tglist_add`, `c94_tglist_insert_partial`, `c94_tglist_insert_behind_refuted`, `c94_tgilist_add`, `c94_tgilist_insert`
* `T_aliassort.v`: `c94_insert_sorted_partial`, `c94_insert_sorted_refuted`, `c94_insert_sorted_distinct_refuted`
* `T_avg.v`: `c122_average`, `c122_logarithmic`, `c122_worst`, `c122_ways`
* `T_avg2.v`: `c122_merge_calls`, `c122_insert_calls`, `c122_delete_calls`, `c122_insert_average`, `c122_delete_average`
* `T_b64term.v`: `c30_terminated_iff`
* `T_base64.v`: `c28_base64enc_is_rfc4648`, `c29_base64dec_inverts_base64enc`, `c30_base64dec_safe_and_strict`, `c30_terminated_refuted`, `c31_base64enc_str_complete_or_prefix`
* `T_bench.v`: `c101_bmap_bench`, `c101_hbmap_bench`, `c101_int_bench`, `c101_bmap_bench_10000`, `c101_hbmap_bench_1000000_refuted`
* `T_benchoom.v`: `c101_bmap_bench_memory`, `c101_hbmap_bench_memory`, `c101_int_bench_memory`, `c101_first_key_lost`
* `T_bitarray.v`: `c63_get`, `c63_get_swapped`, `c63_set`, `c63_size`, `c63_bytem`, `c63_bytel`
* `T_bmap.v`: `c10_bmap_is_map_tglist`, `c10_bmap_is_map_tgilist`, `c11_bmap_insert_failure_partial`, `c11_bmap_insert_nocheck_failure`, `c11_bmap_insert_nocheck_failure_tgilist`, `c11_bmap_insert_failure_refuted`, `c12_hbmap_is_map_tglist`, `c12_hbmap_is_map_tgilist`, `c12_hbmap_insert_result`, `c13_foreach_visits_each_once`, `c13_delete_loop_empties`
* `T_bscost.v`: `c113_bsearch`, `c113_bsearch_worst`, `c113_insert_sorted`, `c113_tglist_insert_sorted`, `c113_optimal`, `c113_bmap_comment_refuted`
* `T_cdexact.v`: `c87_cut_total`, `c87_lines_exact`, `c88_report_any`
* `T_cdmap.v`: `c88_report_hbmap`
* `T_codedup.v`: `c87_lines_partial`, `c87_line_equal`, `c87_long_line_refuted`, `c87_end_refuted`, `c88_report_partial`, `c88_last_block_refuted`, `c88_skip_refuted`, `c88_zero_hangs_refuted`, `c88_negative_refuted`
* `T_crc32.v`: `c44_crc32`, `c44_crc32c`
* `T_crcmain.v`: `c91_whole_file`, `c91_first_bytes`, `c91_overrun_refuted`, `c91_usage`, `c91_no_file_refuted`
* `T_crcpoly.v`: `c111_crc32_burst`, `c111_crc32c_burst`, `c111_crc32_four_bytes`, `c111_crc32c_parity`, `c111_crc32_parity_refuted`, `c111_final_partial`, `c111_final_comment_refuted`, `c111_residue`, `c111_any_checksum`
* `T_crcthr.v`: `c97_alone`, `c97_after_init`, `c97_during_init_refuted`
* `T_diff.v`: `c49_getpathdiff_exact`, `c49_getpathdiff_right_iff`
* `T_diffex.v`: `c82_exact`, `c82_reported_fun`, `c82_runs_iff`
* `T_endian.v`: `c64_swap16`, `c64_swap32`, `c64_swap64`, `c64_involution`
* `T_endianbe.v`: `c120_swap64`, `c120_swap64_twice`, `c120_stored`, `c120_read`, `c120_wide`, `c120_int`, `c120_le32_int_refuted`
* `T_ex.v`: `c81_hex`, `c82_zero_iff_equal`, `c82_runs_partial`, `c82_last_byte_refuted`, `c82_text`, `c83_jamcrc`, `c83_complement`, `c84_same_size`, `c84_compare`, `c84_flat_partial`, `c84_never_succeeds_refuted`, `c84_slash_refuted`
* `T_filelib.v`: `c47_normalizepath`, `c47_normalizepath_cstr`, `c47_variants_agree`, `c47_relative_fails`, `c48_fixed_point`, `c48_canonical`, `c48_no_double_slash`, `c48_no_trailing_slash`, `c48_cstr_in_bounds`, `c49_getpathdiff_child_partial`, `c49_getpathdiff_other_partial`, `c50_getFileExt_partial`, `c50_no_dot_refuted`, `c48_stack_overflow_refuted`, `c49_equal_length_refuted`, `c49_sibling_refuted`
* `T_filelist.v`: `c70_pattern`, `c70_literal`, `c70_backslash_refuted`, `c70_files`, `c70_oom`, `c70_no_mask`
* `T_filelist2.v`: `c70_memory_exact`, `c70_dot_lost_refuted`
* `T_fileparser.v`: `c51_readline_yields_lines`, `c51_every_file_has_lines`, `c51_long_line`, `c51_read_error`, `c51_seek_error`, `c51_descriptor_zero_refused`, `c52_getnextlinelength_partial`, `c52_eof`, `c52_multiple_of_1024_refuted`, `c53_tofile`, `c53_tofile_prefix`, `c53_roundtrip_partial`, `c53_roundtrip_refuted`, `c53_dup_entries`, `c53_dup_entries_fails`, `c54_tofile_all`, `c54_tofile_prefix`, `c54_tofile_zero_write_hangs`, `c54_tofile_success`, `c54_tofile_empty_refuted`, `c54_fromfile_all`, `c54_fromfile_outcomes`, `c54_empty_file_is_null`, `c54_shrunk_file_hangs`, `c73_read_stdin_line_partial`, `c73_read_stdin_line_refuted`
* `T_find.v`: `c90_find`, `c90_find2`, `c90_listing_unique`, `c90_usage`, `c90_unreadable_refuted`
* `T_fini.v`: `c100_tglist_free_values`, `c100_tglist_free_values_size`, `c100_tgilist_free_values_partial`, `c100_tgilist_free_values_refuted`, `c100_bmap_fini`, `c100_bmap_fini_tgilist_partial`, `c100_bmap_fini_tgilist_refuted`, `c100_bmap_fini_flags_refuted`, `c100_hbmap_fini`
* `T_fitree.v`: `c84_tree`, `c84_tree_stops`, `c84_unreadable_refuted`, `c84_unlisted`
* `T_flexact.v`: `c80_filelist_exact`, `c80_filelist_safe`
* `T_fmtuse.v`: `c69_timestamp`, `c73_format`, `c73_format_refuted`, `c74_fprintf`, `c74_printf`, `c74_rejected_refuted`
* `T_format.v`: `c55_vsnprintf`, `c55_bounds`, `c55_destsize_0_refuted`, `c55_wide_refuted`, `c56_dry_run`, `c57_snprintf`, `c57_subset_refuted`
* `T_format2.v`: `c57_no_directive`, `c57_null_string`, `c57_hex_negative_refuted`, `c57_low_digits_refuted`, `c57_string_precision_refuted`
* `T_fpexact.v`: `c93_exact`, `c93_complete_iff`
* `T_fpfail.v`: `c125_read_fails`, `c125_line_cut_refuted`, `c125_seek_fails`, `c125_skip_fails`, `c125_line`, `c125_last_line`, `c125_no_faults`
* `T_fppieces.v`: `c95_pieces`, `c95_safe`
* `T_fpshort.v`: `c95_lines_partial`, `c95_short_read_refuted`
* `T_fpuse.v`: `c93_prints_file`, `c93_long_line_refuted`, `c93_not_opened`, `c93_descriptor_zero_refuted`
* `T_fuzzexact.v`: `c118_fuzz_exact`, `c118_fuzz_total`
* `T_fuzzover.v`: `c118_fuzz_arg_overflow`
* `T_growcost.v`: `c114_tglist`, `c114_sblist`, `c114_sblist_adds`
* `T_guard.v`: `c65_alloc`, `c65_alloc_fail`, `c65_free_partial`, `c65_free_refuted`
* `T_guardtest.v`: `c110_overrun`, `c110_underrun_refuted`, `c110_passes`, `c110_leak_unnoticed_refuted`, `c110_no_memory`, `c110_passes_only`, `c110_fork_fails_refuted`
* `T_hashany.v`: `c18_iteration_any`, `c18_none_lost`
* `T_hashlist.v`: `c17_hashlist_get`, `c18_hashlist_iteration`, `c18_empty_bucket_refuted`
* `T_hashtest.v`: `c106_md5_check`, `c106_md5str_check`, `c106_md5_tests`, `c106_rc4_check`, `c106_rc4_n`, `c106_rc4_n_1`, `c106_ciphersaber`, `c106_ciphersaber_1`, `c106_rc4_main_partial`, `c106_rc4_main_long_refuted`, `c106_crc_tests`, `c106_raw2hex_tests`
* `T_hex.v`: `c32_raw2hex_writes_lowercase_hex`, `c32_hex2raw_parses_hex`, `c32_hex2raw_inverts_raw2hex`
* `T_ini.v`: `c58_section`, `c58_next`, `c58_headers`, `c59_value_at`, `c59_value`, `c59_file_as_section`, `c59_count`, `c59_count_refuted`
* `T_inimem.v`: `c123_lookup`, `c123_sections`, `c123_early`, `c123_wrong_section_refuted`, `c123_merged`, `c123_no_list_refuted`
* `T_ininext.v`: `c102_next_section_lines`, `c102_next_section_partial`, `c102_next_section_all`, `c102_empty_section_refuted`, `c102_missing_file_refuted`
* `T_ininextany.v`: `c58_next_any`, `c58_next_restarts`
* `T_iniuse.v`: `c89_lookup`, `c89_ambiguous_refuted`, `c89_no_memory_refuted`
* `T_ip.v`: `c38_stringfromipv4_dotted_quad`, `c38_ipv4fromstring_inverts`, `c38_isnumericipv4_accepts_canonical`, `c38_ipv4fromstring_fields`, `c39_isnumericipv4_language`, `c39_isnumericipv4_accepts_quads_partial`, `c39_only_quads_accepted_refuted`
* `T_listtest.v`: `c108_any_sblist_test`, `c108_any_tglist_test`, `c108_any_tgilist_test`, `c108_sblist_insert_test`, `c108_sblist_delete_test`, `c108_tglist_delete_test`, `c108_hashlist_test`, `c108_tglist_insert_test`, `c108_tgilist_insert_test`
* `T_log.v`: `c72_log_put`, `c72_numbers_total`, `c72_log_puts`, `c72_log_putc`, `c72_null`, `c72_log_putd`, `c72_log_puterror`, `c72_log_timestamp`, `c72_op_printall`
* `T_logio.v`: `c121_log_put`, `c121_log_puterror`, `c121_others`, `c121_log_timestamp`, `c121_op_printall`, `c121_arrives`, `c121_retried_refuted`, `c121_errno`
* `T_lstest.v`: `c103_sblist_test`, `c103_sblist_test_each`, `c103_sblist_test_big_refuted`, `c103_tglist_test`, `c103_tglist_test_no_memory_refuted`, `c103_tglist_test_big_refuted`, `c103_sptrlist_test`
* `T_md5.v`: `c45_md5`, `c45_md5str`
* `T_mktemp.v`: `c71_mkdtemp`, `c71_mkdtemp_short`, `c71_mkdtemp_forever`, `c71_too_small`, `c71_shm`, `c71_tmp`
* `T_mktemp2.v`: `c71_mkdtemp_exact`, `c71_shm_exact`, `c71_tmp_exact`
* `T_mrand.v`: `c107_no_repeat`, `c107_period`, `c107_all_seeds`, `c107_priorities_differ`, `c107_all_priorities`, `c107_low_bit`, `c107_insert_draws`
* `T_num.v`: `c33_numberToString_exact`, `c33_representation_unique`, `c33_other_base_null`, `c33_int64ToString_decimal`, `c33_uint64ToString_decimal`, `c33_intToString_decimal`, `c33_uintToString_decimal`, `c34_numberToString_maxlen_partial`, `c34_pad_only_if_requested_refuted`, `c35_itoa_decimal`, `c35_itoa_int_min_refuted`, `c36_utoa_decimal_partial`, `c36_utoa_underflow_refuted`, `c37_strtoint_inverts`, `c37_strtoint64_inverts`, `c37_strtoint_of_intToString`, `c37_exact_up_to_18_digits`, `c37_long_input_overflows`
* `T_opt.v`: `c60_hasflag`, `c60_get`, `c60_combined_refuted`
* `T_optexact.v`: `c60_hasflag_exact`, `c60_get_exact`, `c60_dash_name`, `c60_equals_name`, `c60_empty_name`, `c60_test`
* `T_own.v`: `c75_sblist_life`, `c75_sblist_static`, `c75_two_blocks`, `c76_hashlist_life`, `c77_dup_entries`, `c77_dup_freeall`, `c77_failed_dup_refuted`, `c77_freestrings_twice`, `c77_add_strdup_partial`, `c77_add_strdup_refuted`, `c78_add_dup`, `c78_foreach`, `c79_bmap_fini`, `c79_hbmap_fini`, `c79_tgilist_deleted_refuted`, `c79_fini_twice_refuted`, `c79_tgilist_add`, `c80_replace_partial`, `c80_replace_leaks_refuted`, `c80_filelist_partial`, `c80_filelist_failed_refuted`
* `T_own2.v`: `c76_add_result`, `c79_history`, `c79_nocheck_result`
* `T_ownexact.v`: `c77_add_strdup_exact`, `c80_replace_exact`, `c80_replace_leaks`
* `T_proc.v`: `c66_open`, `c66_wiring`, `c66_succeeds`, `c66_close`, `c66_init_refuted`, `c66_stdin_closed_refuted`, `c67_parent`, `c67_child`, `c67_no_null`
* `T_proc2.v`: `c66_opened_iff`, `c66_failed_iff`
* `T_procexact.v`: `c118_process_exact`
* `T_procstd.v`: `c66_std_closed`, `c66_needs_std`
* `T_psp.v`: `c117_drive_partial`, `c117_root_refuted`, `c117_refused`, `c117_no_drive`
* `T_rc4.v`: `c43_rc4_is_rc4`, `c43_rc4_twice_in_place`, `c43_rc4_empty_key_ub`
* `T_rc4key.v`: `c43_same_key`, `c43_key_twice`, `c43_short_key`, `c43_keylen_0`, `c43_behind`
* `T_sblist.v`: `c01_sblist_refines_list`, `c01_big_items_default_block_refuted`, `c02_oom_leaves_list_unchanged`, `c02_size_wrap_refuted`, `c03_insert_sorted`, `c03_insert_sorted_r`, `c04_bsearch`, `c04_bsearch_r`, `c05_new_from_data_reads`, `c05_growable_after_set_blockitems_partial`, `c05_add_after_new_from_data_refuted`, `c06_free_values_frees_item_addresses`, `c06_free_values_refuted`, `c07_iteration_visits_all`, `c07_delete_while_iterating`
* `T_scan.v`: `c40_strstr_uc_exact`, `c40_strstar_exact`, `c40_repeated_first`, `c40_strstr_uc_complete_iff`, `c40_strstar_complete_iff`
* `T_selftest.v`: `c118_itoa`, `c118_utoa`, `c118_hex2raw`, `c118_mktempdir`, `c118_mktempdir_tmp`, `c118_process_partial`, `c118_process_refuted`, `c118_fuzz_in_bounds`, `c118_fuzz_line`, `c118_fuzz_no_newline_refuted`, `c118_fuzz_arg_partial`, `c118_fuzz_arg_refuted`
* `T_sha512.v`: `c46_sha512`
* `T_shafile.v`: `c105_file_any`
* `T_shapieces.v`: `c46_any_sizes`, `c46_digest_allowed`, `c46_rest_ignored`
* `T_shatest.v`: `c105_crypto_hash`, `c105_to_str`, `c105_step`, `c105_prefixes`, `c105_memcmp`, `c105_strcmp`, `c105_file_partial`, `c105_file_short_read_refuted`, `c105_file_empty_refuted`, `c105_file_missing_refuted`
* `T_small.v`: `c115_modtime_partial`, `c115_modtime_refuted`, `c115_min_max_partial`, `c115_min_max_refuted`, `c115_test1`, `c115_test1_exit_refuted`
* `T_sort.v`: `c85_insert_sorted`, `c85_sorted_from_empty`, `c86_sblist_sort`, `c86_tglist_sort`
* `T_splmem.v`: `c119_splitc`, `c119_splits`, `c119_no_list`, `c119_kept`, `c119_lost_refuted`, `c119_replace`
* `T_spround.v`: `c53_roundtrip_exact`
* `T_ssalloc.v`: `c61_histories`, `c61_free_before_pool_refuted`, `c62_check_accepts_even`, `c62_refuted`, `c62_safe_partial`
* `T_ssexact.v`: `c61_exact`, `c61_determined`, `c62_all_refuted`
* `T_sstest.v`: `c99_heap`, `c99_test`, `c99_test_small_refuted`, `c99_test_12_refuted`
* `T_stdinline.v`: `c73_read_stdin_line_exact`
* `T_stdio.v`: `c96_fprintf_partial`, `c96_fprintf_refuted`, `c96_perror_partial`, `c96_perror_empty_refuted`, `c96_puts_refuted`
* `T_str.v`: `c40_strstr_uc_finds_occurrence`, `c40_strstar_finds_occurrence`, `c40_strstr_uc_char_complete`, `c40_strstar_char_complete`, `c40_strstr_uc_complete_partial`, `c40_strstar_complete_partial`, `c40_every_occurrence_found_refuted`, `c41_findword_partial`, `c41_findword_whole_word`, `c41_findword_whole_word_refuted`, `c42_character_classes`, `c42_makelower_makeupper`, `c42_hexval`, `c42_containsChar`, `c42_containsChar_nul`, `c42_strends`, `c73_strdup_n_whole`, `c73_strdup_n_copies`, `c73_strdup_n_terminates_refuted`
* `T_stringptr.v`: `c19_find_first`, `c19_kv_find_first`, `c20_splitc`, `c20_only_delimiters_change`, `c21_splits`, `c21_empty_delimiter_hangs`, `c22_replace`, `c23_contains`, `c23_here`, `c23_empty_needle_everywhere`, `c23_here_beyond_end_reads_outside`, `c24_chomp`, `c24_chomp_split_exists`, `c24_shiftleft`, `c24_shiftright`, `c24_shift_too_far`, `c25_rchr`, `c25_rchr_not_a_char`, `c25_getfilename`, `c26_hash_is_elf_hash`, `c26_hash_range`, `c27_eq`, `c27_eq_null`, `c27_concat`, `c27_copy`, `c27_strdup`, `c27_tostring`, `c27_tostring_dos`, `c27_out_of_memory`, `c27_copy_out_of_memory_crashes`
* `T_strswitch.v`: `c92_usable_in_switch`, `c92_sets`, `c92_printable_refuted`, `c92_c_literal`, `c92_sh_literal`, `c92_not_exchangeable_refuted`
* `T_strtest.v`: `c109_base64_test`, `c109_base64_round`, `c109_ipv4fromstring_test`, `c109_normalizepath_any`, `c109_normalizepath_test`, `c109_normalizepath_no_memory`, `c109_numberToString_test`, `c109_spformat_test`, `c109_replace_any`, `c109_replace_test`, `c109_replace_no_memory`
* `T_tgbytes.v`: `c116_bytes`, `c116_insert_sorted`, `c116_refines`, `c116_overflow_refuted`
* `T_tgibytes.v`: `c124_history`, `c124_values_stay`, `c124_too_many_refuted`
* `T_tgishort.v`: `c104_signed_refines_list`, `c104_limit`, `c104_short_64k_refuted`, `c104_insert_test`, `c104_insert_test_32768_refuted`
* `T_tgistore.v`: `c09_store_exact`, `c09_store_size`
* `T_tglist.v`: `c08_tglist_refines_list`, `c09_tgilist_refines_list`, `c09_values_never_move`, `c09_index_type_overflow_refuted`
* `T_tight.v`: `c51_getline`, `c53_tofile_success`, `c53_tofile_not_opened`, `c06_free_items`, `c75_set`, `c75_sptr_get`, `c75_fits`, `c75_tglist_fits`, `c101_x31`, `c90_usage_text`
* `T_tight2.v`: `c75_insert`, `c75_delete`, `c75_pop`, `c75_has_block`, `c80_filelist_result`, `c87_hash_one`, `c93_open_result`, `c93_close_result`, `c32_hex2raw_not_hex_refuted`
* `T_tight3.v`: `c118_fuzz_other`
* `T_tight4.v`: `c118_mktempdir_name`, `c54_tofile_calls`, `c54_fromfile_calls`
* `T_tight5.v`: `c109_ip_check`, `c110_child`, `c120_le32_int_le`
* `T_tight6.v`: `c51_readline_seek_error`, `c118_process_not_started`
* `T_tight7.v`: `c57_precision_digits_refuted`, `c105_read_error`, `c106_raw2hex_counts`
* `T_time.v`: `c68_msleep`, `c68_microsleep`, `c68_return`, `c69_diff`, `c69_mspassed`, `c69_getutime`
* `T_tldeep.v`: `c16_free_items_deep_frees_interior_refuted`, `c16_free_deep_frees_interior_refuted`
* `T_tlist.v`: `c14_tlist_refines_list`, `c14_tlist_free_releases_all`, `c15_tlist_is_treap`, `c16_get_out_of_range_partial`, `c16_get_out_of_range_refuted`, `c16_delete_deep_frees_interior_refuted`
* `T_tltest.v`: `c98_same`, `c98_test`, `c98_compare`, `c98_test_oom_refuted`
* `T_treap.v`: `c112_cartesian`, `c112_distinct`, `c112_unique`, `c112_insert_delete`, `c112_delete_two`, `c112_get_cost`
* `T_words.v`: `c41_findword_exact`, `c41_findword_complete`, `c41_findword_first`, `c41_findword_separator_refuted`
