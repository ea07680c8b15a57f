{"id": "C01", "title": "sblist behaves as a mathematical list under every operation history", "statement": "Starting from sblist_new/sblist_init, after any sequence of sblist_add, sblist_addi, sblist_set, sblist_insert (pos <= size), sblist_delete and sblist_pop, the items read back with sblist_get(0..getsize-1) are exactly the items of the corresponding mathematical list, sblist_get beyond the end is NULL, set/delete out of range change nothing and set reports 0, and pop returns the last item.", "quantifier": "every item size >= 1, every blockitems >= 1, every finite operation sequence, every item content, every pattern of successful/failed allocations", "why_tests_cant": "Unbounded operation histories, item sizes and reallocation points; a test samples a handful of them.", "anchors": ["src/sblist/sblist.c: sblist_init, sblist_get, sblist_set, sblist_grow_if_needed, sblist_add", "src/sblist/sblist_insert.c", "src/sblist/sblist_delete.c", "src/sblist/sblist_pop.c", "src/sblist/sblist_addi.c"]}
{"id": "C02", "title": "sblist never writes outside its block and a failed allocation changes nothing", "statement": "No in-range sblist operation reads or writes outside the memory block obtained from realloc, whatever fresh memory contains; when realloc fails, sblist_add/insert return 0 and addi/insert_sorted return (size_t)-1 and the list contents and size are unchanged.", "quantifier": "every reachable list state, every operation with pos <= size, every allocation outcome, provided the byte size of the block fits in size_t", "why_tests_cant": "Memory safety and OOM behaviour at every growth point cannot be enumerated by tests; most tests never see malloc fail.", "anchors": ["src/sblist/sblist.c: sblist_grow_if_needed", "src/sblist/sblist_insert.c: sblist_insert", "include/sblist.h"]}
{"id": "C03", "title": "sblist_insert_sorted keeps the list sorted and returns the new item's index", "statement": "If the list is sorted w.r.t. the comparator (a total preorder), sblist_insert_sorted(l,o,cmp) terminates, never reads out of bounds, and yields a sorted list that is the old list with o inserted at the returned index.", "quantifier": "every sorted list of every length, every item, every total-preorder comparator", "why_tests_cant": "The binary search has index arithmetic with many boundary cases over all list lengths and all positions of equal keys.", "anchors": ["src/sblist/sblist_insert_sorted.c: sblist_insert_sorted", "src/sblist/sblist_insert_sorted_r.c", "include/tglist.h: tglist_sorted_insert_pos_impl"]}
{"id": "C04", "title": "sblist_bsearch finds an equal item iff one exists", "statement": "On a list sorted w.r.t. the comparator, sblist_bsearch returns an index whose item compares equal to the key if some item does, and -1L otherwise; it terminates on every list (sorted or not) and only passes valid items to the comparator.", "quantifier": "every sorted list of every length, every key, every total-preorder comparator", "why_tests_cant": "Completeness of binary search over all lengths is an induction, not a finite check.", "anchors": ["src/sblist/sblist_bsearch.c: sblist_bsearch", "src/sblist/sblist_bsearch_r.c"]}
{"id": "C05", "title": "a list made by sblist_new_from_data can be read and grown", "statement": "sblist_new_from_data(itemsize,data,len) gives a list whose items are data's consecutive items; since blockitems==0 is documented to mean '4KB at a time', adding to it works like adding to any other list.", "quantifier": "every data block, every item size, every subsequent add", "why_tests_cant": "The failing case needs a specific constructor followed by a growth; the second half is in fact false of the code (refuted).", "anchors": ["src/sblist/sblist_new_from_data.c", "src/sblist/sblist.c: sblist_grow_if_needed", "include/sblist.h: blockitems comment"]}
{"id": "C06", "title": "sblist_free_values frees exactly the stored pointers", "statement": "For a list whose items are pointers to distinct live heap blocks, sblist_free_values frees each of those blocks exactly once and frees nothing else.", "quantifier": "every list of pointers to distinct live blocks", "why_tests_cant": "Depends on which addresses are handed to free for every list length; false of the code (refuted).", "anchors": ["src/sblist/sblist_free_values.c"]}
{"id": "C07", "title": "sblist iteration macros visit each item once, in order, also while deleting", "statement": "sblist_iter/sblist_iter_counter visit exactly the items 0..size-1 in order; sblist_iter_counter2s visits every original item exactly once in order even when the body deletes any subset of the visited items and decrements the counter, leaving exactly the non-deleted items.", "quantifier": "every list, every subset of items deleted by the loop body", "why_tests_cant": "All subsets of deletions over all lengths.", "anchors": ["include/sblist.h: sblist_iter_counter, sblist_iter_counter2s"]}
{"id": "C08", "title": "tglist behaves as a mathematical list with geometric growth", "statement": "After any sequence of tglist_add/insert/set/delete with valid positions the elements are those of the mathematical list; no access leaves the allocated block; capacity is 0 or 4*2^k and never smaller than the count; a failed allocation leaves the list unchanged and returns 0.", "quantifier": "every operation history with valid positions, every allocation outcome", "why_tests_cant": "Unbounded histories and OOM points.", "anchors": ["include/tglist.h: tglist_add, tglist_insert, tglist_delete, tglist_grow_if_needed, tglist_memmove_impl"]}
{"id": "C09", "title": "tgilist behaves as a mathematical list and never moves stored values", "statement": "After any sequence of tgilist_add/insert/set/delete with valid positions, tgilist_get(i) is the i-th element of the mathematical list; a stored value keeps its slot in the value store until the list is freed; if either internal list cannot grow the visible list is unchanged and 0 is returned; the value store holds exactly one value for each addition that succeeded, in the order of the additions, with the values that were set since.", "quantifier": "every operation history with valid positions as long as the total number of additions fits the index type, every allocation outcome", "why_tests_cant": "Two coupled arrays with rollback on OOM over unbounded histories.", "anchors": ["include/tgilist.h: tgilist_add, tgilist_insert, tgilist_delete, tgilist_get, tgilist_set"]}
{"id": "C10", "title": "bmap is a finite map with sorted iteration", "statement": "After any sequence of bmap_insert, bmap_find/get/contains, bmap_delete (valid index) and bmap_setvalue, looking up a key yields the value of the last insert of that key not since deleted, keys are unique and bmap_getkey(0..) is strictly increasing; this holds with tglist and with tgilist value storage.", "quantifier": "every total-order comparator, every operation history, every C-conforming bsearch, no allocation failure", "why_tests_cant": "Functional correctness over unbounded histories and all comparators.", "anchors": ["include/bmap.h: bmap_insert, bmap_insert_nocheck, bmap_find_impl, bmap_delete, bmap_get, bmap_setvalue"]}
{"id": "C11", "title": "bmap_insert reports allocation failure", "statement": "If an allocation fails during bmap_insert the map is unchanged and -1 is returned; bmap_insert_nocheck likewise.", "quantifier": "every map state, every allocation that may fail", "why_tests_cant": "Needs fault injection at each allocation; false for bmap_insert when the value list cannot grow (refuted), true for bmap_insert_nocheck.", "anchors": ["include/bmap.h: bmap_insert (comma-operator precedence), bmap_insert_nocheck"]}
{"id": "C12", "title": "hbmap is a finite map whose iterators denote entries", "statement": "For any hash function and bucket count 1..2^32-1, hbmap_find/contains/get after any history of insert/delete/setvalue agree with a finite map, hbmap_find returns (hbmap_iter)-1 iff the key is absent, and otherwise an iterator for which hbmap_getkey/getval return that key and its value.", "quantifier": "every hash function, every bucket count and history with fewer than 2^32-1 items per bucket", "why_tests_cant": "64-bit packed iterators (bucket<<32 | index, with -1 sentinel) over all states.", "anchors": ["include/hbmap.h: hbmap_find, hbmap_insert, hbmap_insert_nocheck, hbmap_delete, hbmap_getkey, hbmap_getval"]}
{"id": "C13", "title": "hbmap_foreach visits every entry exactly once", "statement": "hbmap_foreach visits, for every distribution of entries over buckets (including empty first/last buckets and an empty map), each entry exactly once and then terminates; the documented delete-while-iterating loop empties the map.", "quantifier": "every bucket count >= 1, every distribution of entries", "why_tests_cant": "All distributions of empty and non-empty buckets.", "anchors": ["include/hbmap.h: hbmap_foreach, hbmap_next_valid_impl, hbmap_next_step, hbmap_iter_valid"]}
{"id": "C14", "title": "tlist behaves as a mathematical list", "statement": "After any sequence of tlist_insert, tlist_append, tlist_delete, tlist_free_items, tlist_getsize and tlist_get (idx < size) answer as the mathematical list does; insert with idx > size and delete with idx >= size return 0 and change nothing (up to 2^32-1 items).", "quantifier": "every operation history, every seed of the priority generator, up to 2^32-1 items", "why_tests_cant": "Treap shape depends on pseudo-random priorities; every shape and history must work.", "anchors": ["src/tlist/tlist.c: merge, split, getitem, insert, remove, tlist_insert, tlist_delete_impl, tlist_get"]}
{"id": "C15", "title": "tlist keeps its tree a heap-ordered treap with exact subtree counts", "statement": "In every reachable tlist each node's count is the size of its subtree and no child has a larger priority than its parent, so the expected-logarithmic depth argument applies to every history.", "quantifier": "every operation history, every seed", "why_tests_cant": "Structural invariant invisible to black-box tests; only its loss (slow or wrong indexing) would show.", "anchors": ["src/tlist/tlist.c: merge, split, remove, upd_cnt, mrand"]}
{"id": "C16", "title": "tlist_get is NULL out of range and the _deep functions free the stored pointer", "statement": "tlist_get(t,idx) returns NULL (or is at least distinguishable) when idx >= size; tlist_delete_deep, tlist_free_items_deep and tlist_free_deep free the pointer stored in each removed item besides the item itself.", "quantifier": "every list, every index", "why_tests_cant": "Depends on address arithmetic on NULL and on which address reaches free; both halves are false of the code (refuted).", "anchors": ["src/tlist/tlist.c: tlist_get, data, tlist_delete_impl, tlist_free_items_deep, tlist_free_deep"]}
{"id": "C17", "title": "hashlist_get returns the bucket holding every value added under that hash", "statement": "After any sequence of hashlist_add, hashlist_get(h,hash) contains, in insertion order, exactly the values added with a hash congruent to hash modulo the bucket count; it is NULL iff there are none.", "quantifier": "every bucket count >= 1, every sequence of additions (no allocation failure)", "why_tests_cant": "Unbounded histories and all hash values.", "anchors": ["src/hashlist/hashlist.c: hashlist_new, hashlist_add, hashlist_get"]}
{"id": "C18", "title": "hashlist iteration visits every stored value exactly once", "statement": "Calling hashlist_next from a fresh iterator until it returns NULL yields every stored value exactly once, bucket by bucket in insertion order, and further calls keep returning NULL.", "quantifier": "every reachable hashlist without empty bucket lists; the unrestricted statement is refuted by a bucket left empty after a failed allocation", "why_tests_cant": "All bucket distributions; the failing state needs an OOM at one particular point.", "anchors": ["src/hashlist/hashlist_iterator.c: hashlist_bucket_next, hashlist_next", "src/hashlist/hashlist.c: hashlist_add"]}
{"id": "C19", "title": "kv_find and stringptrlist_find return the first entry equal to the key", "statement": "kv_find returns 1 and the value of the first entry whose key equals the given string, 0 iff no entry does; stringptrlist_find returns the least index with an equal string or -1, and contains agrees.", "quantifier": "every list, every key, keys with arbitrary bytes including NUL", "why_tests_cant": "Universal over lists and contents.", "anchors": ["src/kvlist/kvlist.c: kv_find", "src/stringptrlist/stringptrlist_find.c", "src/stringptrlist/stringptrlist_contains.c", "src/stringptr/stringptr_eq.c"]}
{"id": "C20", "title": "stringptr_splitc splits at every delimiter", "statement": "The pieces returned by stringptr_splitc contain no delimiter, joined with the delimiter they give back the original text, and there is one more piece than delimiters; every delimiter in the buffer is replaced by NUL and no other byte changes; nothing outside the buffer plus its terminator is touched.", "quantifier": "every buffer and delimiter byte", "why_tests_cant": "All buffers (empty, leading/trailing/adjacent delimiters) of any length.", "anchors": ["src/stringptrlist/stringptr_splitc.c"]}
{"id": "C21", "title": "stringptr_splits splits at every leftmost non-overlapping occurrence", "statement": "For a non-empty delimiter string, the pieces joined with the delimiter give the original text, and each piece ends at the first occurrence of the delimiter after the previous one (so the number of pieces is the number of leftmost non-overlapping matches plus one); only the first byte of each match is overwritten with NUL. With an empty delimiter the call never returns.", "quantifier": "every buffer, every delimiter string", "why_tests_cant": "Overlapping self-similar delimiters in arbitrary texts; divergence cannot be observed by a test.", "anchors": ["src/stringptrlist/stringptr_splits.c", "src/stringptr/stringptr_here.c"]}
{"id": "C22", "title": "stringptr_replace substitutes every occurrence", "statement": "stringptr_replace(buf,what,whit) with non-empty what returns a fresh string equal to buf with each leftmost non-overlapping occurrence of what replaced by whit, with exactly the right size and terminator, never writing outside the new string.", "quantifier": "every text, pattern and replacement (patterns/replacements of any relative length)", "why_tests_cant": "The output size is precomputed and the copy loop must match it for all inputs.", "anchors": ["src/stringptrlist/stringptr_replace.c", "src/stringptr/stringptr_new.c"]}
{"id": "C23", "title": "stringptr_contains and stringptr_here decide substring occurrence", "statement": "stringptr_contains returns 1 iff needle occurs somewhere in haystack (the empty needle always does) and stringptr_here(h,pos,n), pos <= size, iff it occurs at pos; neither reads out of bounds and both terminate.", "quantifier": "every haystack, needle and position <= size", "why_tests_cant": "Unsigned subtraction in the loop bound must never wrap for any input.", "anchors": ["src/stringptr/stringptr_contains.c", "src/stringptr/stringptr_here.c"]}
{"id": "C24", "title": "chomp, shiftleft and shiftright cut exactly what they say", "statement": "stringptr_chomp removes all and only the trailing CR/LF bytes and returns how many; shiftleft/shiftright by count remove count bytes from the tail/head and return 1, or return 0 and change nothing if count > size; after chomp/shiftleft the text is NUL-terminated.", "quantifier": "every string and count", "why_tests_cant": "Universal over contents.", "anchors": ["src/stringptr/stringptr_chomp.c", "src/stringptr/stringptr_shiftleft.c", "src/stringptr/stringptr_shiftright.c"]}
{"id": "C25", "title": "stringptr_rchr finds the last occurrence; getfilename is the part after the last slash", "statement": "stringptr_rchr returns the position of the last byte equal to the character (as a char value) or NULL iff absent; getfilename returns what follows the last '/', NULL iff there is none.", "quantifier": "every string and character", "why_tests_cant": "Universal over contents; signed index loop.", "anchors": ["src/stringptr/stringptr_rchr.c", "src/filelib/getfilename.c"]}
{"id": "C26", "title": "stringptr_hash is the ELF hash on every platform", "statement": "stringptr_hash returns the SysV ELF hash of the bytes; the result is below 2^28 and does not depend on the width (32 or 64 bits) of uint_fast32_t.", "quantifier": "every byte string", "why_tests_cant": "Width-dependence would only show for particular long strings.", "anchors": ["src/stringptr/stringptr_hash.c"]}
{"id": "C27", "title": "concat, copy, strdup, eq, tostring compute the obvious functions", "statement": "stringptr_concat returns the concatenation of all arguments; copy/strdup return an equal string with terminator; stringptr_eq is byte equality (NULL equal only to NULL); stringptrlist_tostring/_dos return the concatenation of the entries each followed by LF / CR LF, all with exact sizes and in-bounds writes.", "quantifier": "every list of strings", "why_tests_cant": "Sizes are precomputed in one loop and used in another; must agree for all inputs.", "anchors": ["src/stringptr/stringptr_concat.c", "src/stringptr/stringptr_copy.c", "src/stringptr/stringptr_strdup.c", "src/stringptr/stringptr_eq.c", "src/stringptrlist/stringptrlist_tostring.c", "src/stringptrlist/stringptrlist_tostring_dos.c"]}
{"id": "C28", "title": "base64enc is RFC 4648 base64 within the documented buffer size", "statement": "base64enc writes exactly the RFC 4648 encoding of the input followed by a NUL into the first BASE64ENC_BUFSIZE(count) bytes of dst and touches no other byte.", "quantifier": "every byte sequence of every length", "why_tests_cant": "All lengths mod 3 and all byte values in all positions.", "anchors": ["src/strlib/base64enc.c", "src/strlib/base64_tbl.c", "include/strlib.h: BASE64ENC_BUFSIZE"]}
{"id": "C29", "title": "base64dec inverts base64enc", "statement": "For every non-empty byte sequence x, base64dec applied to the encoding of x with dst_len >= BASE64DEC_BUFSIZE returns the length of x and stores x followed by a NUL.", "quantifier": "every byte sequence, every sufficiently large destination", "why_tests_cant": "Round trip over all byte strings.", "anchors": ["src/strlib/base64dec.c", "src/strlib/base64enc.c"]}
{"id": "C30", "title": "base64dec is memory-safe and accepts only well-formed base64", "statement": "For every input string and every dst_len base64dec writes only inside dst[0..dst_len) and returns 0 unless the input is a sequence of 4-character groups of the alphabet with at most two '=' at the very end and dst_len suffices; on success the output is the RFC 4648 decoding and is NUL-terminated. (The NUL-termination right after the decoded bytes holds only for canonical input; refuted otherwise.) The NUL directly follows the decoded bytes iff there is no padding or the bits cut off by it are zero.", "quantifier": "every NUL-terminated input, every dst_len including 0 and too small values", "why_tests_cant": "Adversarial inputs are unbounded.", "anchors": ["src/strlib/base64dec.c"]}
{"id": "C31", "title": "base64enc_str encodes completely or reports failure, never overflowing", "statement": "base64enc_str writes at most dst_len bytes, returns 1 iff the whole encoding plus NUL fits, in which case dst holds it; otherwise (dst_len>0) dst holds the NUL-terminated encoding of a prefix.", "quantifier": "every string, every dst_len including 0", "why_tests_cant": "All combinations of length and buffer size.", "anchors": ["src/strlib/base64enc_str.c"]}
{"id": "C32", "title": "raw2hex/hex2raw round-trip and parse hex", "statement": "raw2hex writes two lowercase hex digits per byte plus NUL and nothing else; hex2raw of a string of hex digits (either case, odd length allowed) stores (len+1)/2 bytes whose big-endian value is the hex number and returns that count; hex2raw(raw2hex(x)) = x.", "quantifier": "every byte sequence / every hex string", "why_tests_cant": "All lengths, both parities, both cases.", "anchors": ["src/strlib/raw2hex.c", "src/strlib/hex2raw.c", "src/strlib/hexval.c"]}
{"id": "C33", "title": "numberToString/intToString/... print the number exactly", "statement": "With maxlen 0 and an even base 2..62, numberToString returns the shortest positional representation of the number (with leading '-' iff the signed flag is set and the number is negative, lowercase digits iff requested and base <= 36), NUL-terminated, writing only the digits, sign and terminator at the start of the buffer; intToString, uintToString, int64ToString, uint64ToString are its decimal instances for every value including the most negative one.", "quantifier": "every 64-bit number, every even base 2..62, every flag combination", "why_tests_cant": "2^64 values times bases times flags.", "anchors": ["src/strlib/numberToString.c", "src/strlib/conv_cypher.c", "src/strlib/intToString.c", "src/strlib/uintToString.c", "src/strlib/int64ToString.c", "src/strlib/uint64ToString.c"]}
{"id": "C34", "title": "numberToString with maxlen pads as requested and never exceeds maxlen digits", "statement": "With maxlen > 0 at most maxlen digits (plus sign) are produced, in-bounds of maxlen+2 bytes, they are the low digits of the number, padded with zeroes to exactly maxlen iff NTS_PAD is given, otherwise without leading zeroes. (Refuted: any non-zero flag acts like NTS_PAD.)", "quantifier": "every number, base, maxlen, flag combination", "why_tests_cant": "The precedence bug in '!flags & NTS_PAD' is invisible for the flag-less calls tests make.", "anchors": ["src/strlib/numberToString.c"]}
{"id": "C35", "title": "itoa prints every int", "statement": "itoa(n,buf) writes the decimal representation of n with NUL within 12 bytes and returns buf, for every int n except INT_MIN, for which it performs a signed overflow.", "quantifier": "every int", "why_tests_cant": "2^32 values; the exception is a single value.", "anchors": ["src/strlib/itoa.c"]}
{"id": "C36", "title": "utoa prints every unsigned", "statement": "utoa(n,buf) writes the decimal representation of n with NUL within 11 bytes for every unsigned n. (Proved for n <= 3294967296, refuted above: it writes before the buffer.)", "quantifier": "every unsigned int", "why_tests_cant": "The threshold 3294967296 is not a boundary a tester would pick.", "anchors": ["src/strlib/utoa.c"]}
{"id": "C37", "title": "strtoint and strtoint64 invert the number printers", "statement": "strtoint(s,len) on an optional '-' followed by decimal digits returns the denoted value for every value in -(2^31-1)..2^31-1 (and for strtoint64 up to 18 digits), so strtoint(intToString(n)) = n; the exact inputs where the arithmetic overflows (INT_MIN, 19-digit numbers) are characterised.", "quantifier": "every digit string within range", "why_tests_cant": "Overflow conditions depend on the last multiplication only.", "anchors": ["src/strlib/strtoint.c", "src/strlib/strtoint64.c"]}
{"id": "C38", "title": "stringfromipv4 and ipv4fromstring round-trip", "statement": "stringfromipv4 writes the canonical dotted quad of the four bytes within 16 bytes; ipv4fromstring of it returns 1 and the same bytes; isnumericipv4 accepts it.", "quantifier": "all 2^32 addresses", "why_tests_cant": "2^32 addresses.", "anchors": ["src/strlib/stringfromipv4.c", "src/strlib/ipv4fromstring.c", "src/strlib/isnumericipv4.c"]}
{"id": "C39", "title": "isnumericipv4 accepts exactly dotted quads", "statement": "isnumericipv4(s) = 1 iff s consists of four dot-separated groups of 1-3 digits. (Refuted: '12.3.4.' and '1234567.1.1.1' are accepted; the accepted language is characterised exactly.)", "quantifier": "every string", "why_tests_cant": "Infinite input space.", "anchors": ["src/strlib/isnumericipv4.c"]}
{"id": "C40", "title": "strstr_uc and strstar: results are real matches", "statement": "A non-NULL result of strstr_uc points at a case-insensitive occurrence of the upper-case needle, of strstar at an occurrence where '*' matches any byte; neither reads past the terminator and both terminate. Every occurrence should be found: refuted (the scan does not back up after a partial match), with completeness proved for one-character needles and for first occurrences not preceded by the needle's first character.", "quantifier": "every haystack and needle", "why_tests_cant": "The missed matches need a partial match directly before the real one.", "anchors": ["src/strlib/strstr_uc.c", "src/strlib/strstar.c"]}
{"id": "C41", "title": "findword only returns whole words", "statement": "A non-NULL result of findword is an occurrence of the word followed by end of text or a separator and preceded by the start of the text or a separator. (Refuted for the preceding side after a rejected partial hit: 'aa' contains the word 'A'.)", "quantifier": "every text and word", "why_tests_cant": "Needs a rejected hit immediately before.", "anchors": ["src/strlib/findword.c"]}
{"id": "C42", "title": "character classification and case conversion", "statement": "isNumber/isLetter/isAlpha/isUpper/isLower hold exactly of the ASCII classes they name, makelower/makeupper change exactly ASCII letters of the other case and are inverse on letters, hexval is the value of a hex digit and 0 otherwise, containsChar holds iff the (non-NUL) character occurs, strends iff the first string ends with the second.", "quantifier": "every char value / every string", "why_tests_cant": "Universal over strings; finite sweeps for chars are lifted to a theorem.", "anchors": ["src/strlib/isAlpha.c", "src/strlib/isLetter.c", "src/strlib/isLower.c", "src/strlib/isUpper.c", "src/strlib/isNumber.c", "src/strlib/makelower.c", "src/strlib/makeupper.c", "src/strlib/hexval.c", "src/strlib/containsChar.c", "src/strlib/strends.c", "include/strswitch.h"]}
{"id": "C43", "title": "rc4 is RC4 and its own inverse", "statement": "rc4(dst,src,len,key,keylen) with keylen >= 1 computes standard RC4, in particular applying it twice with the same key restores the data (also in place), and all table accesses are in bounds. Only the first 256 bytes of the key repeated count, so a key and the same key written twice give the same output. With dst behind src the part of the source already overwritten is enciphered twice, byte by byte. Behind keylen 0, or an array shorter than keylen, up to 256 bytes are read from the array, past its end if it is shorter.", "quantifier": "every key with keylen >= 1 and every data length", "why_tests_cant": "All keys and lengths.", "anchors": ["src/strlib/rc4.c"]}
{"id": "C44", "title": "CRC32/CRC32C equal the bitwise definition for every chunking", "statement": "After InitTables, feeding data through any sequence of Update calls and Final yields the little-endian bytes of the reflected bit-serial CRC with polynomial 0x04C11DB7 (0x1EDC6F41) of the concatenated data.", "quantifier": "every byte sequence, every way of cutting it into Update calls", "why_tests_cant": "Slicing-by-4 tables against all data and all chunk alignments.", "anchors": ["src/crc32/crc32_impl.c: InitTables, Update, Final, reverse"]}
{"id": "C45", "title": "MD5 equals RFC 1321 for every chunking", "statement": "md5_init, any sequence of md5_update calls, md5_end yields the RFC 1321 digest of the concatenated data (length taken mod 2^64 bits); md5_end does not modify the context; md5str is the lowercase hex of it.", "quantifier": "every byte sequence, every chunking", "why_tests_cant": "Padding and buffering boundaries for every length mod 64 and every cut.", "anchors": ["src/md5/md5.c", "src/md5/md5str.c"]}
{"id": "C46", "title": "SHA-512 equals FIPS 180-4 under the documented chunking rule", "statement": "sha512_init, updates with sizes that are multiples of 128 except the last non-empty one, sha512_end yields the FIPS 180-4 SHA-512 digest of the concatenated data.", "quantifier": "every byte sequence of fewer than 2^64 bytes, every allowed chunking", "why_tests_cant": "Padding boundaries (111/112/127 mod 128) and in-place message schedule for all data.", "anchors": ["src/sha512/sha512.c"]}
{"id": "C47", "title": "normalizepath resolves exactly '.', '..' and repeated slashes", "statement": "For an absolute path without NUL, normalizepath and normalizepath_cstr succeed iff no prefix climbs above the root, and then the result is '/' followed by the '/'-separated components left after dropping '' and '.' and resolving '..'; they fail on relative paths; the two functions always agree; on failure normalizepath leaves the path unchanged.", "quantifier": "every path (normalizepath: shorter than PATH_MAX)", "why_tests_cant": "A goto-based scanner over all strings of slashes and dots.", "anchors": ["src/filelib/normalizepath.c", "src/filelib/normalizepath_cstr.c"]}
{"id": "C48", "title": "normalized paths are canonical and in bounds", "statement": "A normalized path is a fixed point of normalizepath, contains no '//', no '.' or '..' component and no trailing slash (except '/'); normalizepath_cstr never writes past strlen(path)+1 bytes and never reads past the terminator; normalizepath overflows its stack buffer for some paths of PATH_MAX bytes or more (refuted bound).", "quantifier": "every absolute path", "why_tests_cant": "Idempotence and bounds over all strings.", "anchors": ["src/filelib/normalizepath.c", "src/filelib/normalizepath_cstr.c"]}
{"id": "C49", "title": "getpathdiff returns the suffix of a child path", "statement": "If normalized path2 equals path1 or lies below it, getpathdiff returns the rest of path2 (starting with '/' or empty) and its length; -1 if path2 is not below path1. (Refuted: equal-length different paths give 0, '/foo' vs '/foobar' gives 'bar'.)", "quantifier": "every pair of absolute paths", "why_tests_cant": "The failing inputs need equal lengths or a sibling with a common name prefix.", "anchors": ["src/filelib/getpathdiff.c"]}
{"id": "C50", "title": "getFileExt returns the extension", "statement": "getFileExt(name,len) returns the text after the last '.'; NULL if the name has no '.'. (Refuted: without a dot it returns name+1.)", "quantifier": "every file name", "why_tests_cant": "Universal over names.", "anchors": ["src/filelib/getfileext.c"]}
{"id": "C51", "title": "fileparser_readline yields exactly the lines of the file", "statement": "On a regular file every line of which is shorter than the buffer, successive fileparser_readline calls return the lines of the file in order (without LF, NUL-terminated) and then -2; a line that does not fit yields -3 and leaves the position unchanged; no byte outside the buffer is written. If lseek fails its error is returned, exactly when the data read does not end where the next line begins.", "quantifier": "every file content, every buffer size >= 1", "why_tests_cant": "All line-length/buffer-size alignments including a last line without LF.", "anchors": ["src/fileparser/fileparser_readline_userbuf.c", "src/fileparser/fileparser_readline.c", "src/fileparser/fileparser_getline.c", "src/fileparser/fileparser_open.c"]}
{"id": "C52", "title": "fileparser_getnextlinelength tells the next line's length without consuming it", "statement": "It returns the length of the next line however long and leaves the read position unchanged, -1 at end of file. (Refuted for an unterminated last line whose length is a positive multiple of 1024.)", "quantifier": "every file content and position", "why_tests_cant": "The failing case needs an exact multiple of the buffer size at end of file.", "anchors": ["src/fileparser/fileparser_getnextlinelength.c"]}
{"id": "C53", "title": "stringptrlist_tofile/fromfile round-trip", "statement": "Writing a list of LF-free strings and reading the file back restores the list. (Proved for non-empty strings shorter than 1024 bytes; refuted for lists with an empty string or a longer string, after which reading stops silently.)", "quantifier": "every list of strings", "why_tests_cant": "Silent truncation depends on content.", "anchors": ["src/stringptrlist/stringptrlist_tofile.c", "src/stringptrlist/stringptrlist_fromfile.c"]}
{"id": "C54", "title": "stringptr_tofile/fromfile transfer all bytes under any short reads/writes", "statement": "For every schedule of partial writes (each at least one byte) stringptr_tofile writes exactly the buffer and returns its size; on a write error it returns the number of bytes written, which are a prefix; stringptr_fromfile returns exactly the file's bytes for every schedule of partial reads, NULL on a read error; if the file shrinks so that read returns 0 it never terminates.", "quantifier": "every content, every schedule of partial transfers and errors", "why_tests_cant": "Kernel schedules cannot be enumerated; 64K chunk boundary.", "anchors": ["src/stringptr/stringptr_tofile.c", "src/stringptr/stringptr_fromfile.c"]}
{"id": "C55", "title": "ulz_vsnprintf never overflows and truncates like a prefix", "statement": "For dest non-NULL and destsize >= 1, whatever format and arguments with single-digit widths, ulz_vsnprintf writes only dest[0..destsize), and on success dest holds the first destsize-1 bytes of the full output, NUL-terminated, and the number of them is returned. (Refuted for destsize 0, where dest[0] is written, and for wide multi-digit widths, which overflow the internal number buffer.)", "quantifier": "every format string, every matching argument list, every destsize", "why_tests_cant": "All truncation points of all outputs.", "anchors": ["src/format/ulz_vsnprintf.c", "src/format/ulz_snprintf.c"]}
{"id": "C56", "title": "ulz_vsnprintf with NULL dest returns the length of the full output", "statement": "The dry run returns exactly the number of bytes a call with a sufficiently large buffer writes, and -1 for exactly the same formats.", "quantifier": "every format string, every argument list", "why_tests_cant": "Two-pass use (size then fill) must agree for all inputs.", "anchors": ["src/format/ulz_vsnprintf.c"]}
{"id": "C57", "title": "ulz_snprintf formats like C sprintf on its supported subset", "statement": "For formats made of ordinary characters, %%, %s, %c (non-NUL), %d, %u, %ld, %lu, %lld, %llu, %zu, %x/%X of non-negative ints, %p (hexadecimal capitals) and %.Nd/%.Nu/%.Nx with one-digit N at least the number of digits, the output is what C sprintf specifies. After such items anything that is no directive, and %s of a null pointer, make it return -1 with the text so far in the buffer. (Refuted outside: two-digit precision is misparsed, every value wider than the precision loses its first digits, %x of every negative int prints 16 digits, a precision of %s does not cut the string and is applied to the next number.)", "quantifier": "every format in the subset, every argument value", "why_tests_cant": "Infinite formats and values; the differences need particular values.", "anchors": ["src/format/ulz_vsnprintf.c", "src/strlib/numberToString.c"]}
{"id": "C58", "title": "iniparser sections are the lines between headers", "statement": "iniparser_get_section returns the line range after the first line starting with '[name]' up to the next line starting with '[' or the end of file, and {0,0} iff there is no such header; get_next_section continues after a found section, so iterating enumerates all sections of that name in order. For any prev, section or not, get_next_section gives the first section of that name behind line startline + linecount modulo 2^64, or {0,0}.", "quantifier": "every list of lines, every section name, every start line", "why_tests_cant": "Universal over files.", "anchors": ["src/iniparser/iniparser.c"]}
{"id": "C59", "title": "iniparser_getvalue returns the first matching key's value", "statement": "iniparser_getvalue returns the text after 'key=' of the first line of the section that starts with 'key=', or an empty/NULL result iff no line does; getvalue_at also returns the line index; iniparser_file_as_section makes it search all lines of the file; count_sections counts the header lines.", "quantifier": "every section, key and file", "why_tests_cant": "Universal over files.", "anchors": ["src/iniparser/iniparser.c: iniparser_getvalue, iniparser_getvalue_at", "src/iniparser/iniparser_count_sections.c"]}
{"id": "C60", "title": "op_hasflag and op_get decode the command line", "statement": "op_hasflag(p,f) = 1 iff some argument is -f, or --f when f is longer than one character; op_get(p,a) returns the text after '=' of the first -a=... / --a=... argument or the following argument of the first -a / --a, whichever comes first, NULL iff none. The documented combined form -ltp is not recognised (refuted). For every other name the answer is known too: a name of two or more characters beginning with - is found only behind two dashes more, a name with = in it but not in front has no value, and the empty name gets a pointer behind the first option without = (outside the argument if that is \"-\").", "quantifier": "every argv, every option name", "why_tests_cant": "Universal over command lines.", "anchors": ["src/optparser/op_get.c", "src/optparser/op_hasflag.c", "src/optparser/op_init.c", "include/optparser.h", "examples/optparser_test.c"]}
{"id": "C61", "title": "the single-size stack allocator never hands out a block twice", "statement": "For every history of ssa_alloc/ssa_free from ssa_init, live blocks are distinct, aligned elements of the pool; avail equals MAXELEM minus the number of live blocks; alloc of size <= ELEMSIZE fails iff the pool is full; freeing a pointer that is not a live block changes nothing (MAXELEM a positive multiple of 8). Which block each allocation returns is determined for every pool size: the block behind the highest live one, or, if the last block of the pool is live, the lowest free one among the first 8 * (MAXELEM / 8).", "quantifier": "every history, every pool size that is a multiple of 8, every element size", "why_tests_cant": "Unbounded histories with holes; a bitmap scan by words.", "anchors": ["include/ssalloc.c", "include/bitarray.h"]}
{"id": "C62", "title": "ssalloc with a pool size that is not a multiple of 8", "statement": "ssa_alloc succeeds whenever a block is free, for every even pool size the preprocessor check accepts. (Refuted: for every accepted size that is not a multiple of 8; the power-of-2 check is ineffective.)", "quantifier": "every accepted pool size", "why_tests_cant": "Needs a specific size and a full pool with a hole in the tail.", "anchors": ["include/ssalloc.c"]}
{"id": "C63", "title": "bit arrays store independent bits", "statement": "BA_SET(a,i,c) makes BA_GET(a,i) equal c and leaves every other bit unchanged; BA_GET_SWAPPED reads bits in reversed order inside each byte; BA_SIZE_REQUIRED(n) bytes are exactly enough for n bits.", "quantifier": "every array, every index in range", "why_tests_cant": "All pairs of positions and byte values.", "anchors": ["include/bitarray.h"]}
{"id": "C64", "title": "byteswap macros reverse bytes and are involutions", "statement": "byteswap16/32/64 reverse the byte order of their operand, byteswapN(byteswapN(x)) = x.", "quantifier": "every 16/32/64-bit value", "why_tests_cant": "2^64 values.", "anchors": ["include/endianness.h"]}
{"id": "C65", "title": "guard_alloc places the guard page right after the block and guard_free undoes the mapping", "statement": "The block returned by guard_alloc(n) ends exactly at the guard page and lies inside the mapping; guard_free(p,n) unmaps exactly the pages mapped. (Refuted when n is a multiple of the page size: the first page stays mapped.)", "quantifier": "every n not overflowing, every page size that is a power of two", "why_tests_cant": "All residues of n modulo the page size.", "anchors": ["include/guard_alloc.c"]}
{"id": "C66", "title": "process_open leaks no descriptor and wires the pipes", "statement": "On success exactly three new descriptors stay open in the parent, p->fds[0] writes to the child's stdin and p->fds[1], [2] read from its stdout and stderr, and the child holds no other end of these pipes; whichever step fails, every descriptor opened is closed again (descriptors 0-2 being open in the caller). With any of 0-2 closed the call always fails, and all is as before except that descriptor 0, if closed, stays open as the end of the first pipe once that was made. With 0-2 open it succeeds exactly if no call it makes fails by itself and six descriptors are free below the limit; otherwise it fails and the table is as before.", "quantifier": "every initial descriptor table with 0-2 open, every failing step", "why_tests_cant": "Every fault point and descriptor numbering.", "anchors": ["src/proclib/process.c"]}
{"id": "C67", "title": "daemonize leaves 0,1,2 on /dev/null and nothing else open", "statement": "In the surviving process after daemonize the descriptors 0, 1 and 2 refer to /dev/null and no other descriptor below the table size is open.", "quantifier": "every initial descriptor table", "why_tests_cant": "All initial tables.", "anchors": ["src/proclib/daemonize.c"]}
{"id": "C68", "title": "msleep/microsleep sleep at least the requested time whatever signals arrive", "statement": "For a non-negative duration the nanosleep request is well-formed and, if 0 is returned, the total time slept is at least the requested time, for every sequence of EINTR interruptions; other errors are returned at once.", "quantifier": "every duration, every interruption schedule", "why_tests_cant": "Signal schedules cannot be enumerated.", "anchors": ["src/timelib/msleep.c", "src/timelib/microsleep.c"]}
{"id": "C69", "title": "time arithmetic: timespec_diff, mspassed, getutime, timestamp", "statement": "timespec_diff is the exact nanosecond difference; mspassed is the floor of the elapsed milliseconds for a non-negative difference; getutime is sec*10^6+usec; timestamp prints 'YYYY-MM-DD hh:mm:ss' (19 bytes) for years 0..9999 in any sufficiently large buffer and a truncated prefix otherwise.", "quantifier": "every normalised timeval/timespec, every calendar time, every buffer size >= 1", "why_tests_cant": "Borrow/rounding boundaries.", "anchors": ["src/timelib/timespec_diff.c", "src/timelib/mspassed.c", "src/timelib/getutime.c", "src/timelib/timestamp.c"]}
{"id": "C70", "title": "filelist_search builds a literal directory pattern and filters dot entries", "statement": "The pattern given to glob never overflows its buffer; unless the directory contains a backslash, the directory part matches exactly that directory name literally (backslash: refuted); of the names glob returns, exactly those not excluded by the FLF_ flags are listed, without their directory part iff FLF_EXCLUDE_PATH; if memory runs out the result is -1 and no list (refuted for the entries \"./\" and \"../\", which are then missing without an error).", "quantifier": "every directory, mask, flag set, glob result and outcome of every allocation", "why_tests_cant": "All lengths around PATH_MAX and all names.", "anchors": ["src/filelist/filelist.c: cpystr_escape, filelist_search"]}
{"id": "C71", "title": "mktempdir/ulz_mkdtemp keep the template's prefix and stay in the buffer", "statement": "mktempdir writes only inside the given buffer, returns 0 if it is too small or both directories fail, and otherwise the length of the NUL-terminated created path '/dev/shm/'|'/tmp/' + prefix + six alphanumerics; ulz_mkdtemp changes only the last six characters and retries exactly on EEXIST, each time with six fresh numbers of the random sequence.", "quantifier": "every prefix, buffer size, random sequence and mkdir outcome sequence", "why_tests_cant": "All random/EEXIST schedules.", "anchors": ["src/filelib/mktempdir.c", "src/filelib/ulz_mkdtemp.c"]}
{"id": "C72", "title": "log_put writes the concatenation of its arguments and a newline", "statement": "If every write succeeds, log_put emits the text of each vario argument in order (strings verbatim, numbers in decimal with sign) followed by one LF; NULL strings are skipped; log_putc, log_putd, log_puterror, op_printall likewise.", "quantifier": "every argument list", "why_tests_cant": "Universal over arguments.", "anchors": ["src/logger/log_put.c", "src/logger/log_puts.c", "src/logger/log_putc.c", "src/logger/log_putd.c", "src/logger/log_puterror.c", "src/optparser/op_printall.c", "include/vario.h"]}
{"id": "C73", "title": "helpers that promise terminated strings", "statement": "strdup_n(str,len) returns a NUL-terminated copy of the first len bytes; stringptr_format returns a string whose size is its length; read_stdin_line with chomp removes the line end only. (Each refuted outside a stated guard: text longer than len, malformed format, line without LF.) For every input read_stdin_line returns the bytes fgets takes up to the first NUL, with chomp less the last of them whatever it is.", "quantifier": "every input", "why_tests_cant": "The failing inputs are specific.", "anchors": ["src/strlib/strdup_n.c", "src/stringptr/stringptr_format.c", "src/stringptr/read_stdin_line.c"]}
{"id": "C74", "title": "ulz_printf and ulz_fprintf write the formatted text once", "statement": "For a format ulz_vsnprintf accepts, ulz_fprintf(fd, ...) calls write(2) once on fd with exactly the first 4095 bytes of the formatted text, and not at all if the text is empty; ulz_printf is the same on descriptor 1. (Refuted for rejected formats, where write is called with a count of SIZE_MAX on the 4096-byte local buffer.)", "quantifier": "all formats, arguments, descriptors and contents of the uninitialised buffers", "why_tests_cant": "Tests cover few formats and cannot see a read of the uninitialised or foreign stack by write(2).", "anchors": ["src/format/ulz_printf.c", "src/format/ulz_fprintf.c"]}
{"id": "C75", "title": "sblist gives back all its memory", "statement": "Over the whole life of an sblist (sblist_new or sblist_init, any sequence of add, insert, delete, set, pop, free_items, then sblist_free or sblist_free_items) every block is freed exactly once and nothing else is freed: afterwards exactly the blocks live before are live. While it lives it holds its struct and at most one more block. This holds whichever of the allocations fail.", "quantifier": "every sequence of operations, every pattern of allocation failures, every heap", "why_tests_cant": "Leaks and double frees on failure paths need fault injection at every allocation of every history.", "anchors": ["src/sblist/sblist.c", "src/sblist/sblist_insert.c", "src/sblist/sblist_delete.c", "src/sblist/sblist_pop.c"]}
{"id": "C76", "title": "hashlist gives back all its memory", "statement": "hashlist_new, any additions and hashlist_free free each block exactly once, also when any of the allocations (struct, table, buckets, bucket items) fails. hashlist_add returns 0 exactly if the item was appended to its bucket; otherwise every bucket is as before.", "quantifier": "every list of additions, every positive table size, every pattern of allocation failures", "why_tests_cant": "Needs fault injection at every allocation.", "anchors": ["src/hashlist/hashlist.c"]}
{"id": "C77", "title": "ownership of stringptrlist entries", "statement": "stringptrlist_dup_entries returns -1 after giving every entry a copy of its own, or else the index of the first entry without one, all earlier entries then being copies and all later ones untouched. After success stringptrlist_freeall frees exactly the copies and the list. stringptrlist_freestrings leaves NULL strings of size 0, so a second call does nothing. A list built by stringptrlist_add_strdup is wholly freed by freeall if no call failed. (Refuted: freeall after a failed dup_entries frees the caller's strings; add_strdup loses the copy when the list cannot grow.) For every pattern of failures exactly the copies made while the list could not grow are left after freeall.", "quantifier": "every list, every heap, every pattern of allocation failures", "why_tests_cant": "Failure paths need fault injection.", "anchors": ["src/stringptrlist/stringptrlist_dup_entries.c", "src/stringptrlist/stringptrlist_freestrings.c", "src/stringptrlist/stringptrlist_freeall.c", "src/stringptrlist/stringptrlist_add_strdup.c"]}
{"id": "C78", "title": "stringlist.h", "statement": "stringlist_add_dup returns 1 and stores a fresh copy or returns 0 and leaves no block behind; the list has as many entries as calls that returned 1, all distinct blocks; stringlist_foreach visits each entry once in order.", "quantifier": "every number of calls, every pattern of allocation failures", "why_tests_cant": "Failure paths need fault injection.", "anchors": ["include/stringlist.h"]}
{"id": "C79", "title": "bmap_fini and hbmap_fini free what the flags ask for", "statement": "After any history bmap_fini frees the map's own blocks, each stored key exactly once if BMAP_FLAG asks for keys, each stored value exactly once if it asks for values, and nothing else; likewise hbmap_fini over all buckets, and for both ways of storing values. Keys and values stay in step whichever allocations fail: an insertion returns its position and takes place, or returns -1 and changes nothing. (Refuted: with tgilist storage deleted values are freed as well; a second bmap_fini frees again.)", "quantifier": "every history, flag combination and pattern of allocation failures", "why_tests_cant": "Double frees depend on the history and on failed allocations.", "anchors": ["include/bmap.h", "include/hbmap.h", "include/tglist.h", "include/tgilist.h"]}
{"id": "C80", "title": "memory of stringptr_replace and of filelist_search", "statement": "stringptr_replace never frees twice and leaves at most two blocks besides its result; filelist_search followed by filelist_free frees everything if it succeeded or failed before listing. (Refuted: stringptr_replace with enough memory always leaks the items block of its temporary list; filelist_free after a failed addition frees the list struct a second time.) For every pattern of failures the number of blocks stringptr_replace leaves is known: none if the list cannot be made, else one for the items block if any piece was stored, and one more for the list header if the result cannot be allocated. filelist_search gives 1 iff glob fails, -1 iff the list cannot be made, a name has no slash or a name finds the list full with no memory to grow it, else 0; filelist_free afterwards frees everything in every case but the last of these, where it always frees twice.", "quantifier": "every number of pieces or names, every pattern of allocation failures", "why_tests_cant": "Leaks are invisible to functional tests; the failure path needs fault injection.", "anchors": ["src/stringptrlist/stringptr_replace.c", "src/filelist/filelist.c"]}
{"id": "C81", "title": "hex.c prints the hexadecimal digits of its input", "statement": "For every input and every way read(2) delivers it in blocks of 1 to 1024 bytes, the bytes written to descriptor 1 are two lowercase digits per input byte followed by one newline, and no buffer is overrun.", "quantifier": "every input, every sequence of read sizes, every content of the uninitialised buffers", "why_tests_cant": "Read sizes on pipes vary; tests use few.", "anchors": ["examples/hex.c"]}
{"id": "C82", "title": "diff.c reports the differing ranges of two files", "statement": "diff ends for every two files, says 0 differences iff the files agree on the length of the shorter one, and prints numbers in decimal. It reports exactly the maximal ranges of differing bytes if for each range [o, o+n) the place o+2n is not past the common length. (Refuted: a difference in the last byte is reported one byte too early, at offset 2^64-1 for one-byte files.)", "quantifier": "all pairs of files", "why_tests_cant": "The failing inputs depend on where the last difference lies.", "anchors": ["examples/diff.c"]}
{"id": "C83", "title": "crc32_printer.c's third checksum is JAMCRC", "statement": "For every input and block structure the third checksum is the CRC-32 register without the final complement; its bytes are 255 minus those of CRC32_Final.", "quantifier": "all inputs and chunkings", "why_tests_cant": "Tests compare few values.", "anchors": ["examples/crc32_printer.c"]}
{"id": "C84", "title": "find_identical_files.c", "statement": "compare_files returns 0 iff files of equal size are equal. For directories without common subdirectories, given both with or both without trailing slash, exactly the common names whose files are (or, in mode n, are not) identical are printed. (Refuted: the program never returns 0, since process_path falls off its end; with only the first directory ending in a slash the second path is wrong; files of different size can compare as identical.) On whole directory trees, with 0 seen in place of the value process_path does not return, the names printed are exactly those of the files of the same relative path in both trees whose contents are (or are not) identical; at any other value the walk stops and the names printed so far are a prefix; a file that cannot be opened is undefined behaviour.", "quantifier": "all file contents, directory trees, listings and modes", "why_tests_cant": "Needs files around multiples of 16 KiB and particular command lines; the missing return is undefined behaviour.", "anchors": ["examples/find_identical_files.c"]}
{"id": "C85", "title": "tglist_insert_sorted", "statement": "On any reachable tglist and for any comparator tglist_insert_sorted terminates, stays inside the block and either inserts the item at the index it returns leaving the other items in order, or (only when realloc failed) returns (size_t)-1 with the list unchanged; with a total preorder a sorted list stays sorted, and a list filled only this way holds exactly the accepted items, sorted.", "quantifier": "all item types and sizes, comparators, histories and allocator outcomes with total size below 2^64", "why_tests_cant": "The binary search has boundary branches (hi/lo crossing, index 0 underflow) that depend on length, position and ties; tests visit few, and inconsistent comparators fewer.", "anchors": ["include/tglist.h"]}
{"id": "C86", "title": "sblist_sort and tglist_sort", "statement": "Given that qsort leaves a permutation of the array elements, sblist_sort and tglist_sort leave exactly those items in qsort's order, touch no byte beyond the items, and when the result is sorted sblist_bsearch on it finds an item iff an equal one was in the list before sorting.", "quantifier": "all reachable lists, comparators and qsort outcomes", "why_tests_cant": "libc's qsort order for ties is unspecified, so a test sees one of many permitted results.", "anchors": ["src/sblist/sblist_sort.c", "src/sblist/sblist_bsearch.c", "include/tglist.h"]}
{"id": "C87", "title": "codedup.c: reading", "statement": "For a text file without NUL bytes whose lines have at most 1022 bytes the lines stored are exactly those from index start on up to the one before line end - 1, without leading white space if -w is given, each with its hash; the assertions hold and no access leaves the buffer; two stored lines compare equal iff they are the same string. (Refuted: a longer line is read as two lines; line -e end is neither the last line taken nor the first left out.)", "quantifier": "all files, start and end values, buffer contents", "why_tests_cant": "Line lengths around the buffer size and the three-way interplay of start, end and the counter are boundary cases; the assertions only guard the executed path.", "anchors": ["examples/codedup.c"]}
{"id": "C88", "title": "codedup.c: duplicates", "statement": "With -i at least 1 the search terminates and never reads outside the list of lines; every record printed is a real duplicate: at least the minimal number of lines, equal at all listed places, disjoint, not extensible downwards, places ascending, text being the block; records are sorted by length and then line, their blocks do not overlap; and every duplicated block that does not repeat its first line and whose copy ends before the last line has its first line in a reported block. (Refuted: -i 0 never ends, -i -2 reads out of bounds, a copy ending with the last line is not found, and skipping ahead after a partial match misses duplicates.)", "quantifier": "all files, minimal lengths, and orders in which the map is walked", "why_tests_cant": "The properties speak about all pairs of positions of arbitrary files; the misses depend on particular repetition patterns.", "anchors": ["examples/codedup.c", "include/tglist.h"]}
{"id": "C89", "title": "ini file: from the text to a value", "statement": "For every ini file written from sections and entries (no line feed in them, no ] in section names, no = in keys, no key beginning with [) the sequence stringptr_copy, stringptr_linesplit, iniparser_get_section, iniparser_getvalue gives, for any section name and key, exactly the value of the first entry with that key in the first section with that name, followed by a NUL, and nothing if there is none. (Refuted: names containing ] and keys containing = are ambiguous; the copy is used unchecked without memory.)", "quantifier": "all ini files, section names, keys", "why_tests_cant": "The composition of four functions sharing one buffer has to agree with the written data for every file and query; tests see one file.", "anchors": ["src/iniparser/iniparser.c", "examples/iniparser_test.c"]}
{"id": "C90", "title": "filelist_find_test.c, filelist_find_test2.c: the listing", "statement": "For every finite directory tree that glob(3) serves (paths within PATH_MAX) both programs end and write exactly the listing of find: the directory itself, then everything below it, one path per line, whether or not the argument ends with a slash; a tree has exactly one listing; with any other number of arguments they write the usage and return 1. (Refuted: a directory that cannot be read or whose path is too long is silently left out, with exit status 0.)", "quantifier": "all directory trees and arguments", "why_tests_cant": "Trees are unbounded in depth and width; the two programs build paths in different ways and have to agree on all of them.", "anchors": ["examples/filelist_find_test.c", "examples/filelist_find_test2.c", "src/filelist/filelist.c"]}
{"id": "C91", "title": "crc32_printer.c: the checksums of a file", "statement": "The selftests pass; for every readable file the program prints the CRC-32C, the CRC-32 and the JAMCRC of the whole file, of any length, and with a count N of 0 to 65536 those of its first N bytes, as hexadecimal text with the three labels; without arguments it prints the usage. (Refuted: a count above 65536 or a negative one other than -1 overruns the buffer on a longer file; a file that cannot be opened is read through NULL.)", "quantifier": "all files and counts", "why_tests_cant": "Files of any length cross the 64 KB block boundary at arbitrary places; the checksums are compared with the polynomial definition, not with samples.", "anchors": ["examples/crc32_printer.c", "include/crc32_impl.h"]}
{"id": "C92", "title": "strswitch.h: the character sets", "statement": "No case list contains a character twice, so each macro is usable in a switch; the sets are exactly the ASCII letters, alphanumerics and so on; any text over STRSWITCH_C_PRINTABLE stands for itself in a C string literal, trigraphs included; any text over STRSWITCH_SH_PRINTABLE stands for itself between single or double quotes in the shell. (Refuted: STRSWITCH_PRINTABLE lacks the printable characters ^, ` and |; the C set is not safe in the shell.)", "quantifier": "all texts over the sets", "why_tests_cant": "The claim is about all texts, including combinations such as trigraphs; a test checks characters one at a time.", "anchors": ["include/strswitch.h"]}
{"id": "C93", "title": "fileparser: open, read, close; fileparser_test.c", "statement": "With descriptor 0 in use, opening, reading and closing prints exactly the lines of the file, each up to its first NUL and with a line feed, and leaves the descriptor table as it was; if the file cannot be opened nothing is printed and no descriptor is touched. (Refuted: reading stops silently at a line of 1024 bytes or more; if descriptor 0 was free nothing is read and the file is never closed.)", "quantifier": "all file contents and descriptor tables", "why_tests_cant": "The failure for descriptor 0 depends on how the process was started; line lengths have to be exactly at the buffer size.", "anchors": ["src/fileparser/fileparser_open.c", "src/fileparser/fileparser_close.c", "examples/fileparser_test.c"]}
{"id": "C94", "title": "Lists: adding an item of the list to the list itself", "statement": "tglist_add, tgilist_add and tgilist_insert with an item read from the same list store that item, also when the block grows; tglist_insert does for items up to the position; sblist_set for another item's place, sblist_add and sblist_insert (items before the position) do while the block need not grow. tglist_insert_sorted of an own item into a sorted list that need not grow inserts an item that compares equal and keeps the list sorted, if a copy of the item would go to another place. (Refuted: sblist_add and sblist_insert read freed memory when the block grows; sblist_insert and tglist_insert of an item behind the position store the one before it; sblist_set and sblist_insert at the item's own place copy overlapping memory; tglist_insert_sorted reads freed memory when the block grows, copies a place onto itself whenever no other item compares equal, and may insert another item that compares equal.)", "quantifier": "all reachable lists, items, positions and allocation outcomes", "why_tests_cant": "Whether the block grows depends on the count and block size; after realloc the freed block often still holds the right bytes, so a test passes.", "anchors": ["include/tglist.h", "include/tgilist.h", "src/sblist/sblist.c", "src/sblist/sblist_insert.c"]}
{"id": "C95", "title": "fileparser: reads that deliver less than there is", "statement": "When every read(2) delivers at least the whole next line with its line feed, successive fileparser_readline_userbuf calls give exactly the lines of the file, whatever else the reads leave out, and then -2. (Refuted in general: a read that stops within a line makes the calls give the line in two pieces, and the first byte after that line is skipped: no call ever delivers it.)", "quantifier": "all file contents, buffer sizes, lines fitting the buffer and sequences of read counts", "why_tests_cant": "Reads of local regular files are complete in practice; short reads come from network and FUSE files, /proc or signals, which tests do not provoke.", "anchors": ["src/fileparser/fileparser_readline_userbuf.c", "include/fileparser.h"]}
{"id": "C96", "title": "stdio-repl.h: the macros against stdio", "statement": "With equal string literals at one address, fprintf(stdout/stderr, ...) through include/stdio-repl.h writes the text ulz_vsnprintf gives, cut at 4095 bytes, to descriptor 1 or 2; perror of a nonempty text writes what C's perror writes. (Refuted: where the compiler does not merge literals, as C allows, fprintf writes nothing at all, and it never does for another stream name; perror(NULL) and perror(\"\") write an extra colon and space; puts writes no new-line, whatever the text.)", "quantifier": "all formats, arguments, texts, error messages, stream names and ways to place string literals", "why_tests_cant": "Compilers merge equal literals at most optimisation levels, so a test with one compiler cannot see that the address comparison is not guaranteed.", "anchors": ["include/stdio-repl.h", "src/format/ulz_fprintf.c", "src/logger/log_puterror.c", "src/logger/log_putc.c"]}
{"id": "C97", "title": "crc32: several threads", "statement": "After CRC32_InitTables has run through, any number of threads may compute check values and call it again, in any interleaving of their reads and writes (sequentially consistent): nothing undefined happens, the tables stay, and each thread ends with the CRC of its data. A thread that runs InitTables alone leaves the tables of InitTables. (Refuted before that: a thread may follow a null table pointer, or use a table not filled yet and get a wrong check value.)", "quantifier": "all numbers of threads, data, schedules; both polynomials", "why_tests_cant": "The wrong interleavings have a window of microseconds once per process; tests do not hit them.", "anchors": ["src/crc32/crc32_impl.c"]}
{"id": "C98", "title": "sblist and tlist: the same calls, the same items", "statement": "An sblist and a tlist that get the same add, insert (up to the end) and delete calls hold the same items in the same order after each history; tests/tlist_test.c, with any size N below 2^30 instead of 20480 and any random numbers, passes all its assertions when no allocation fails, and tlist_free then frees each node once and the list. (Refuted: it fails when one allocation fails, because it does not look at the results.)", "quantifier": "all histories, item sizes, block sizes, contents of fresh memory, addresses, random numbers", "why_tests_cant": "The test runs with one sequence of random numbers and one size.", "anchors": ["tests/tlist_test.c", "src/tlist/tlist.c", "src/sblist/sblist.c", "src/sblist/sblist_insert.c", "src/sblist/sblist_delete.c"]}
{"id": "C99", "title": "ssalloc: what a client sees, with DEBUG", "statement": "For a pool of a multiple of 8 elements, whatever a client with an array of pointers does (allocate into null pointers, store into its blocks, free and null), the DEBUG abort is never reached, an allocation fails only when it is too large or all elements are in use, the blocks are distinct, lie in the pool and hold what was stored last, avail is the number of unused elements and top the end of the last used one; tests/ssalloc_test.c passes for every sequence of random numbers and for all such pool sizes and element sizes from 6 bytes. (Refuted: elements shorter than its 6-byte text make the test write outside the pool; with 12 elements, accepted by the preprocessor check, it can fail.)", "quantifier": "all pool sizes, element sizes, array lengths, histories, data and random numbers", "why_tests_cant": "The test runs one random history of one size.", "anchors": ["include/ssalloc.c", "include/bitarray.h", "tests/ssalloc_test.c"]}
{"id": "C100", "title": "Destroying a list or a map frees every stored pointer once", "statement": "After any history of operations on a list of pointers tglist_free_values passes every stored pointer to free exactly once and leaves an empty list that can be used again; on items that are not pointer-sized it does nothing. bmap_fini and hbmap_fini free, according to the flags, every key and every value the map holds exactly once, and the arrays of every bucket. With tgilist (also as value list of a map) the pointers of deleted entries are freed as well. An argument such as 2|0 for the flags frees the keys.", "quantifier": "for all histories with valid positions and any allocation outcomes, all total orders, all conforming bsearch, all hash functions, bucket counts and flags", "why_tests_cant": "a leak or a double free depends on the history and on which slots still hold stale pointers; tests free maps that were never deleted from", "anchors": ["include/tglist.h", "include/tgilist.h", "include/bmap.h", "include/hbmap.h"]}
{"id": "C101", "title": "The map benchmarks compute the sum they print, or overflow", "statement": "For every number of items and of seeks and all random numbers, test_bmap and test_bmap_int of tests/bmap_bench.c and tests/hbmap_bench.c pass their assertions; the number returned is the sum of the values looked up if it fits an int, otherwise the addition overflows (undefined); every key in the map is freed once at the end. With the sizes in the file bmap_bench cannot overflow; hbmap_bench overflows for usual random numbers.", "quantifier": "all N, seeks, random numbers, conforming bsearch and strcmp, decimal texts", "why_tests_cant": "The programs run with one size and one seed; signed overflow is silent.", "anchors": ["tests/bmap_bench.c", "tests/hbmap_bench.c", "include/bmap.h", "include/hbmap.h"]}
{"id": "C102", "title": "Going through the sections of one name shows the value of each", "statement": "For every file made of sections and key=value lines, the program tests/iniparser_test_nextsection.c shows, in file order, the first value of the key in every section of the name in which it is set and not empty, one line each. The walk ends at the first section of that name that has no lines (sections after it are never shown), and a file that is missing or empty makes the program dereference NULL.", "quantifier": "all files, section names, keys, short reads, memory contents", "why_tests_cant": "The test program has one input file, which is not in the repository, and no check of the output.", "anchors": ["tests/iniparser_test_nextsection.c", "src/iniparser/iniparser.c", "include/iniparser.h", "src/stringptr/stringptr_fromfile.c"]}
{"id": "C103", "title": "The list tests pass exactly when the memory they need is there", "statement": "tests/sblist_test.c, tests/tglist_test.c and tests/sptrlist_test.c pass if every growth of the list gets its memory - an sblist each time a block is full, a tglist at 0, 4, 8, 16 ... items - and never pass if one of these fails; other allocation outcomes, the random numbers and the bytes of the disturbing block do not matter. Without memory sblist_test always aborts; tglist_test can read past the end of the list. With 2^30 items or more, or a negative count, the counters overflow.", "quantifier": "all item sizes, counts, block sizes, random numbers, allocation outcomes", "why_tests_cant": "The tests run with a few sizes and memory that never fails.", "anchors": ["tests/sblist_test.c", "tests/tglist_test.c", "tests/sptrlist_test.c", "include/tglist.h", "src/sblist/sblist.c"]}
{"id": "C104", "title": "tgilist with a signed index type holds half as many values, not 64K", "statement": "With a signed index type of im values (short: 65536), every history of at most im / 2 operations on a tgilist behaves as on a mathematical list for every outcome of the allocations. Of up to im values added one after the other those at positions below im / 2 are read back unchanged and reading any other is an access outside the block; so the header's advice that short will do for 64K values is wrong. The insertion loop of tests/tgilist_insert_test.c passes for any count from 16001 to 32767 when memory is available, never leaves a block whatever the allocations do, and reads outside the block from 32768 on.", "quantifier": "all item types, item and index sizes, all index types up to 64 bits, all histories with all allocation outcomes, all numbers of values", "why_tests_cant": "the test stops at 16384 values; the limit shows only with a particular width of the index type and a particular count, and may go unnoticed without a sanitizer", "anchors": ["include/tgilist.h", "tests/tgilist_insert_test.c"]}
{"id": "C105", "title": "The sha512 test compares three independent computations and finds no error, except on files read in pieces", "statement": "tests/sha512_test.c: the one-shot crypto_hash equals SHA-512 of its input; sha512_to_str writes the lowercase hexadecimal digits; for every sequence of random numbers, every buffer size and every content of the uninitialised objects, the three ways of hashing each prefix agree and the program reports no error. With a file name it prints the hash and returns 0 if each read delivers whole 128-byte blocks or all that was asked for; a read that stops inside a block makes it complain about a difference that is not there, and an empty or missing file makes it dereference NULL.", "quantifier": "all random sequences, buffer sizes, uninitialised contents, files and read sizes", "why_tests_cant": "it is the test itself that is examined; short reads and leftover stack bytes cannot be chosen by a test", "anchors": ["tests/sha512_test.c", "src/sha512/sha512.c"]}
{"id": "C106", "title": "The hash and cipher test programs decide what they mean to decide, and pass", "statement": "The checks in tests/md5_test.c, md5str_test.c and rc4_test.c accept an expected string exactly if it is the hexadecimal MD5 (RC4 encryption) of the text, for every text (RC4: up to 2048 bytes), key and leftover stack content; all their vectors, those of crc32_test.c and of raw2hex_test.c pass. rc4_n is RC4 with the key schedule run n times and equals rc4 for n = 1; ciphersaber_2_dec inverts CipherSaber-2 encryption for every key below 256 bytes, vector, text and number of rounds. An argument of 2048 bytes or more to rc4_test overflows its buffer.", "quantifier": "all texts, expected strings, keys, numbers of rounds and uninitialised contents", "why_tests_cant": "a test that passes does not show that it would fail for a wrong value; the stack contents and long arguments are not varied", "anchors": ["tests/md5_test.c", "tests/md5str_test.c", "tests/rc4_test.c", "tests/crc32_test.c", "tests/raw2hex_test.c"]}
{"id": "C107", "title": "The random generator of tlist has the full period and gives 2^31 different priorities in a row", "statement": "mrand in src/tlist/tlist.c, started from any seed, does not repeat a seed within 2^32 calls, reaches every seed and is back at the start after exactly 2^32 calls; any 2^31 priorities drawn in a row are pairwise different and each value from 0 to 2^31-1 is among them, so up to 2^31 items inserted in a row never tie. The low bit of the priorities alternates. An insertion that succeeds draws exactly one number, one that fails draws none.", "quantifier": "all seeds, all numbers of calls up to the period and beyond", "why_tests_cant": "the period is 2^32 and would have to be walked from each seed; a wrong constant still yields numbers that look random", "anchors": ["src/tlist/tlist.c"]}
{"id": "C108", "title": "The list test programs pass exactly when their lists work", "statement": "For every sequence of additions, insertions, deletions, size checks and item checks with positions in range (a list test), run on a new sblist, tglist or tgilist (index type short or unsigned short) with memory available, the assertions hold exactly if they hold on plain mathematical lists. sblist_insert_test passes iff the allocations of its growing calls succeed (calls 0, 4..7, 8..11); sblist_delete_test iff its first one does; tglist_delete_test iff those of the calls 0, 4 and 8 do; hashlist_test iff those of its first calls per bucket do. With memory tglist_insert_test passes for every strcmp, every correct qsort and every number of loop rounds from 16001 on, and so do the remaining parts of tgilist_insert_test.", "quantifier": "all test sequences, all contents of fresh memory, all allocation outcomes, all libc strcmp and qsort implementations", "why_tests_cant": "The tests run once with one libc and one allocator that never fails; they cannot say that any test of this form must pass, nor which allocation failures they would notice.", "anchors": ["tests/sblist_insert_test.c", "tests/sblist_delete_test.c", "tests/tglist_delete_test.c", "tests/tglist_insert_test.c", "tests/tgilist_insert_test.c", "tests/hashlist_test.c"]}
{"id": "C109", "title": "The string test programs pass on every run", "statement": "For every content of the uninitialised arrays: base64_test counts no failure, and encoding and decoding any string of up to 48 nonzero bytes through its two buffers passes the same three checks; both assertions of ipv4fromstring_test hold; every assertion of spformat_test about ulz_snprintf holds, wherever buf lies; numberToString_test prints one fixed list of 20 strings, in which two calls are zero padded without asking for it. normalizepath_test passes and prints the normal forms of its paths, and its loop does so for any paths below 4096 bytes, if the copies get memory; otherwise it writes through NULL. The assertions of stringptr_replace_test, for any strings in its place, hold exactly if the result gets memory and the wanted string is the given one with every occurrence, from the left, replaced; its eight do hold.", "quantifier": "all initial contents of the local arrays, all allocation outcomes, all strings in the general forms of the checks", "why_tests_cant": "A run of the programs shows one content of the stack and an allocator that does not fail; it cannot show that nothing depends on leftover bytes, nor what happens without memory.", "anchors": ["tests/base64_test.c", "tests/ipv4fromstring_test.c", "tests/normalizepath_test.c", "tests/numberToString_test.c", "tests/spformat_test.c", "tests/stringptr_replace_test.c"]}
{"id": "C110", "title": "The guard page test passes wherever the memory lies", "statement": "For every page size 2^k of at least 32 bytes and every place of free pages that mmap chooses, guard_alloc_test passes if the system calls succeed, and the address space is as before. For every block of guard_alloc each write into it works and each write up to one page behind it ends the process with SIGSEGV, but a write before it is never noticed. With pages of 16 bytes or less the test passes although two pages stay mapped. Without memory for the first block it aborts; a failed fork is taken for a child and an uninitialised status is read.", "quantifier": "all page sizes, all places, all sizes, all offsets, all outcomes of mmap, fork and waitpid", "why_tests_cant": "The test looks at three offsets with one page size at one place; the promise in the comment is about every access out of bounds.", "anchors": ["tests/guard_alloc_test.c", "include/guard_alloc.c"]}
{"id": "C111", "title": "What the CRC32 checksums detect", "statement": "For CRC32 and CRC32C, whatever the chunks given to Update: two messages that differ only within 32 consecutive bits have different checksums. With CRC32C the checksum has the parity of the message. The message followed by its checksum is a multiple of the generator polynomial in the sense of the comment on Final in crc32_impl.h, and its own checksum is a constant.", "quantifier": "all messages, all chunkings, all positions of the difference", "why_tests_cant": "a test can try a few corruptions, not all pairs of messages; and no test compares Final with the algebraic statement in the header", "anchors": ["include/crc32_impl.h", "src/crc32/crc32_impl.c"]}
{"id": "C112", "title": "The shape of tlist's tree depends only on items and priorities", "statement": "The tree of a tlist is at any time the Cartesian tree of its items by priority. Within 2^31 calls the priorities are all different, so the tree depends only on the items present: inserting and deleting an item restores the same tree, deletions commute, and a look-up visits one node for the item and one for each item whose priority exceeds those of all items between the two.", "quantifier": "all histories of up to 2^31 calls, all seeds, all allocation outcomes", "why_tests_cant": "a test sees the items, not the shape; the cost of a look-up is invisible to it, and all histories leading to the same items cannot be tried", "anchors": ["include/tlist.h", "src/tlist/tlist.c"]}
{"id": "C113", "title": "The binary searches compare at most log2 n + 1 items, and no search can do better", "statement": "sblist_bsearch, sblist_insert_sorted and tglist_insert_sorted on a list of n >= 1 items call the comparator at most k times where 2^(k-1) <= n, whatever the comparator answers; sblist_bsearch never looks at a position twice and no search looks outside the list. The bound is met: a key below all items (bsearch) and an item above all items (insert_sorted) cost exactly the k with 2^(k-1) <= n < 2^k. No correct search by comparisons needs fewer in the worst case, so the figure in bmap.h (12 comparisons for 10000 elements) is too low for every bsearch: 14 are needed for some key.", "quantifier": "all lists reachable by any history of calls, all comparators (consistent or not), all keys; for the lower bound all decision trees", "why_tests_cant": "the worst case over all comparators and sizes is a bound on an unbounded set of runs, and the lower bound quantifies over all search algorithms", "anchors": ["src/sblist/sblist_bsearch.c", "src/sblist/sblist_insert_sorted.c", "include/tglist.h", "include/bmap.h"]}
{"id": "C114", "title": "What growing a list costs", "statement": "Along every history of calls a tglist gives up blocks of 0, 4, 8, 16, ... slots in this order, so that all copying by realloc together is less than twice the number of additions, and deletions never shrink the block; an sblist gives up blocks of 0, 1, 2, ... times blockitems slots (4096/itemsize if blockitems is 0), k reallocations needing more than (k-1)*blockitems additions. n additions to an sblist with memory reallocate exactly ceil(n/blockitems) times and copy blockitems*k*(k-1)/2 slots.", "quantifier": "all histories of calls, including failing allocations, whose total size is representable", "why_tests_cant": "the total cost is a sum over histories of any length", "anchors": ["include/tglist.h", "src/sblist/sblist.c", "include/sblist.h"]}
{"id": "C115", "title": "Small helpers: getFileModTime, MIN, MAX, stringptr_test1", "statement": "getFileModTime returns the modification time of an existing file and 0 for a missing one; the two are told apart only if the file was not last modified at the epoch. MIN and MAX of expressions without side effects are the minimum and the maximum; with side effects the selected argument is evaluated twice. The example stringptr_test1 writes \"test\" into test.txt under every schedule of short writes, or the part before the first error, and exits with 0 in every case.", "quantifier": "all outcomes of stat, all expressions, all schedules of short and failing writes", "why_tests_cant": "the failing system calls cannot be produced on demand, and macro arguments range over all expressions", "anchors": ["src/filelib/getfilemodtime.c", "include/macros.h", "examples/stringptr_test1.c"]}
{"id": "C116", "title": "tglist on the bytes of its block", "statement": "On the bytes of the allocated block, with items of any size and memcpy/memmove/realloc at the offsets computed by the macros, every history of tglist calls with valid positions stays inside the block and answers like a mathematical list of byte strings; tglist_insert_sorted puts the item at the returned index and keeps a sorted list sorted. The byte level gives the same answers, count and capacity as the slot level and its block is the concatenation of the slots. Beyond a block size of 2^64 the product capa * sizeof(item) wraps and the next write leaves the block.", "quantifier": "all item sizes, all histories of add, insert, delete, get and set, all contents of fresh memory, all failures of realloc", "why_tests_cant": "item sizes, histories and the junk in fresh memory are unbounded; the wrap needs items of 2^62 bytes", "anchors": ["include/tglist.h"]}
{"id": "C117", "title": "PSP variant of path normalization", "statement": "normalizepath_cstr compiled with PSPLIKE_PATH keeps the drive name and its colon and normalizes the path behind it as the unix variant does, within strlen(path)+1 bytes of output. Paths above the root, drive names without a colon and paths without a slash are refused. A path without a drive is treated as by the unix variant. The root of a drive is an exception: \"ms0:/\" becomes \"ms0:\", which the function itself refuses.", "quantifier": "every drive name without slash, every rest of the path, every content of the output buffer and of the memory behind it", "why_tests_cant": "the variant is compiled only for one platform and the paths are unbounded; the root of a drive is one case among all paths that normalize to it", "anchors": ["src/filelib/normalizepath_cstr.c"]}
{"id": "C118", "title": "Test programs inside the sources", "statement": "The test programs kept in itoa.c, utoa.c, hex2raw.c, mktempdir.c, process.c and normalizepath_cstr.c pass whatever their arrays held before. itoa and utoa print the decimal numbers, the assertions of hex2raw hold, mktempdir returns 0 exactly if a directory was made and its 30 bytes suffice. The fuzz target of normalizepath_cstr stays in bounds for every input file and prints the normal form of the first line. Exceptions: the test of process.c depends on the byte behind the answer, the fuzz target drops the last byte of a file without newline, and overflows its array for an argument of 64 bytes or more. For every file the fuzz target normalises the bytes fgets takes up to the first NUL less the last of them whatever it is, and gives 1 if there are none.", "quantifier": "every initial content of the arrays, every random stream, every sequence of mkdir results, every input file, every descriptor table", "why_tests_cant": "a run of a test sees one content of the stack; the failures need non-zero bytes at one place of an uninitialized array or a rare input", "anchors": ["src/strlib/itoa.c", "src/strlib/utoa.c", "src/strlib/hex2raw.c", "src/filelib/mktempdir.c", "src/filelib/normalizepath_cstr.c", "src/proclib/process.c"]}
{"id": "C119", "title": "Splitting and replacing when the list of pieces cannot grow", "statement": "For every sequence of allocation outcomes, stringptr_splitc and stringptr_splits cut the buffer as always and store exactly the pieces that find room: 16 per granted request, one lost per refused one, in order. No loss is reported. stringptr_replace then returns the stored pieces joined by the replacement, followed by as many uninitialised bytes as the lost pieces and patterns had; if no piece was stored and the replacement is 1 to 17 bytes longer than text and pattern together, it writes outside its block.", "quantifier": "every text, pattern, replacement and sequence of allocation outcomes", "why_tests_cant": "Needs an allocation that fails in the middle of a split, and the result of a lost add is ignored.", "anchors": ["src/stringptrlist/stringptr_splitc.c", "src/stringptrlist/stringptr_splits.c", "src/stringptrlist/stringptr_replace.c", "src/sblist/sblist.c"]}
{"id": "C120", "title": "Byte order macros on machines of both byte orders", "statement": "byteswap64 reverses the bytes of its argument on little- and big-endian machines alike; le16 and le32 store the little-endian bytes of their argument on both and give back the number read from little-endian bytes; byteswap16 and byteswap32 ignore the upper bytes of wider arguments. On an int, byteswap32 is the swapped number iff the lowest byte is below 128 and undefined otherwise, so le32 of an int is not portable (refuted).", "quantifier": "every value of the types, both byte orders", "why_tests_cant": "the big-endian branch is never compiled on the machines the tests run on, and the undefined shift gives the expected number with common compilers", "anchors": ["include/endianness.h"]}
{"id": "C121", "title": "The logger asks for the same bytes whatever becomes of its writes, and reports the errno it was called with", "statement": "For every result of every write (all, a part, failure with any errno): log_puts, log_putc, log_putd, log_put, log_puterror, log_timestamp and op_printall make calls of write on the given descriptor for exactly their text, none of them for zero bytes; log_puterror shows the message of the errno on entry even when its own writes change errno; the text arrives iff every write took everything, since nothing is tried again; errno afterwards is that of the last write that failed.", "quantifier": "all arguments, descriptors, errno values, strerror tables and all outcomes of every call of write", "why_tests_cant": "A test writes to a terminal or file that takes everything; short writes and errno changes in the middle of a message need fault injection for every call.", "anchors": ["src/logger/log_put.c", "src/logger/log_puts.c", "src/logger/log_putc.c", "src/logger/log_putd.c", "src/logger/log_puterror.c", "src/logger/log_putln.c", "src/logger/log_timestamp.c", "src/optparser/op_printall.c"]}
{"id": "C122", "title": "The randomised tree behind tlist gives logarithmic cost on average", "statement": "Averaged over all n! ways to put n items one after another into a new tlist, with the priorities its own generator produces, reading item i visits exactly H(i+1) + H(n-i) - 1 nodes, H being the harmonic numbers, so at most 1 + log2(i+1) + log2(n-i); inserting at i takes between 3 + H(i) + H(n-i) and 5 + 3 H(i) + 2 H(n-i), and deleting item i between 2 H(i+1) + 2 H(n-i) - 2 and 2 H(i+1) + 2 H(n-i) + H(i) + H(n-i-1) - 1 calls of the recursive functions. A single list may be as bad as a linked list: some way makes reading item 0 visit all n nodes.", "quantifier": "All seeds, all n up to 2^31 items, all item values and addresses, all places i, the full enumeration of the n! insertion orders.", "why_tests_cant": "The claim is about an average over n! runs, for every n; tests time a few runs and cannot tell a logarithmic average with constant 2 from one with another constant.", "anchors": ["src/tlist/tlist.c"]}
{"id": "C123", "title": "Ini files when memory for the list of lines runs out", "statement": "With every pattern of failing allocations of the line list, looking up a value and going through the sections of a name give exactly what a file without the lost lines would give; a value among the first 16 k lines is found if the first k requests for room are granted. That a value found is one the file has under that section is refuted: where the line of a header is lost, the entries behind it are taken for those of the section before.", "quantifier": "all texts, names, keys and patterns of allocation failures", "why_tests_cant": "a test would need an allocator failing at one chosen request, and every combination of file and failing requests", "anchors": ["src/iniparser/iniparser.c", "src/stringptrlist/stringptr_splitc.c", "examples/iniparser_test.c", "tests/iniparser_test_nextsection.c"]}
{"id": "C124", "title": "tgilist on the bytes of its two blocks", "statement": "With indices stored as unsigned objects of n bytes in either byte order and values as byte strings of any size, every history of tgilist_add/insert/set/delete/get calls with valid positions and at most 256^n operations stays inside both blocks and answers like a mathematical list of byte strings, whichever of the two blocks fails to grow. The index block starts with the bytes of the indices in use, each of another value, and the value block with the bytes of all values stored. An operation leaves the bytes of the stored values where they are, except those of the value that is set. One value more than the index type can count is stored, but its position reads as the first value.", "quantifier": "both byte orders, all index and item sizes, all histories with valid positions and all outcomes of both reallocs, blocks below 2^64 bytes", "why_tests_cant": "Two blocks grow and fail independently over unbounded histories, and the byte order and size of the index type vary with machine and instantiation.", "anchors": ["include/tgilist.h", "include/tglist.h"]}
{"id": "C125", "title": "fileparser_getnextlinelength with failing calls", "statement": "fileparser_getnextlinelength returns -1 exactly when a read, an lseek after a full piece or the last lseek fails (or at end of file), else the length of the next line with the position put back. After a failed read the parser is behind the whole 1024-byte pieces already read; after a failed lseek of fileparser_readline the file offset is behind all bytes read; after a failed lseek over a piece the parser counts the piece as passed but the file offset is before it; after a failed last lseek only the file offset is wrong. (Refuted: a failed call leaves the position as it was - the next fileparser_readline returns the line without the pieces already read.)", "quantifier": "every file, line length, buffer contents and every pattern of failing calls", "why_tests_cant": "Failure of the n-th read or lseek needs fault injection, and lines can have any number of pieces.", "anchors": ["src/fileparser/fileparser_getnextlinelength.c", "src/fileparser/fileparser_readline.c", "src/fileparser/fileparser_readline_userbuf.c"]}
