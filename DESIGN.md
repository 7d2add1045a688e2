# Formal model of mickjc750/str in Rocq (Coq 8.16.1)

## 1. Approach

The C code under /repo is transcribed function by function into small total
Gallina functions (a shallow embedding).  Each model definition cites the file
and lines it models.  Every property is stated against list-level
specifications (byte strings as `list Z`), not against the model's helpers.

### Memory model (`Mem.v`)

* A memory is a finite list of blocks; a block has a base address, a size, a
  liveness flag, an owner (static memory or the allocator it came from) and a
  cell for each offset.  A cell is a byte, an uninitialised byte, or one byte of
  a `strbuf_t` header (so char writes over a header destroy it).
* A pointer is (object, offset): NULL, a block of the memory, or a string
  literal of the library itself.  Loads and stores outside the object, on a dead
  block, of an uninitialised cell, or through NULL give the outcome `UB`.
* Cross-object pointer comparison / subtraction and forming out-of-bounds
  pointers are UB in ISO C but relied upon by the code.  They are `UB` in the
  model unless the configuration flag `c_ptr` is set (flat address space, as on
  gcc/clang targets); then they use the base addresses.
* The allocator is an arbitrary oracle: for each request it decides to fail, to
  move or not to move, and where to place the block.  An unusable placement is
  replaced by a usable one, so "for every oracle" means "for every allocator
  that keeps the allocator contract".

### Outcomes

`Ok x`, `UB kind`, `Fuel` (loop bound of the model reached; never happens where a
theorem says `Ok`).  A theorem `f ... = Ok r` therefore also says: no undefined
behaviour and termination.

### Configuration (`cfg`)

Theorems are universally quantified over a configuration, with hypotheses on
single flags where needed:

* `c_char_signed`  plain char is signed
* `c_wrapv`        signed int overflow wraps (otherwise UB)
* `c_mem0`         NULL with length 0 is allowed for mem* and `NULL + 0`
* `c_ctype`        isdigit/isxdigit accept negative chars (glibc)
* `c_ptr`          flat address space, see above
* `c_step`         STRBUF_CAPACITY_GROW_STEP
* `c_ptrbytes`     sizeof(void*) (4 or 8), header is 8 + 2*sizeof(void*) bytes
* `c_long64`       long is 64 bit
* `c_big_endian`   host byte order

`int` is 32 bit, `long long` 64 bit, ASCII, C locale.

## 2. Plan per property

Views (model: all of strview.c; proof by induction over the scanned list):

* C01 `strview_sub`: case analysis, closed form in Z.
* C02-C04 find/contains: loop invariant "no earlier (later) occurrence".
* C05 trim: induction over the content.
* C06-C09 match/starts_with/compare: memcmp as a list function; order lemmas.
  C07 is false for the empty view: refuted with a witness, the exact behaviour proved.
* C10-C15 splits: loop invariants; partition lemmas; split_all by induction over fields.
* C16-C18 split_line: one-call theorem; streaming by simulation with a list-level
  automaton, induction over chunks.  C18 is false: refuted.
* C19, C20 dequote: C20 is false ("aba" becomes "b"): refuted.
* C21, C22: memory writes with frame.

Numbers (model: all of strnum.c; floats with an abstract arithmetic):

* C23-C27: the staged accumulators are proved equal to the value of the whole
  digit string or overflow, by induction over the digits.
* C28 false for bytes 0xB0/0xB1: refuted; holds for bytes below 0x80.
* C29 scanner against a grammar function.
* C30 model of make_float_type over an abstract ring, instantiated with exact rationals:
  proved for digit strings converted in at most two chunks, refuted for longer ones.
* C31 false ("infinty" typo): refuted. C32, C33 false: refuted.
* C62, C63 (strict ISO C pointer arithmetic), C64 (strict ISO C ctype arguments) and
  C65 (source left by "inf" is invalid): refuted, each with a theorem for the cases that hold.

* C77-C81 the abstract arithmetic instantiated with Flocq's binary formats (`IeeeSpec.v`): the
  value computed is followed through the roundings with relative error intervals ("near k");
  pow() is a parameter with an accuracy hypothesis.  C79, C80 are false even with a perfect pow().

Buffers (model: all of strbuf.c):

* C34-C41, C45-C48, C50-C53: one theorem per operation:
  representation predicate before, call, representation predicate after, frame.
* C42-C44: induction over operation sequences using the per-operation theorems.
* C49, C51 false: refuted; what remains true is in PropsMore.v (`_partial`), proved in StrbufProofs10.v.  C41 holds only with wrapping arithmetic; UB otherwise (C69, refuted).
* C66 (strict pointer comparison), C67 (header comment on rounding), C70 (failed allocation): refuted, C70
  for every growing buffer.  `C70_no_call_partial`: two runs with different allocators agree unless the allocator
  is called (the `twins` relation of StrbufProofs10.v), so operations that fit work with a failing one.
* C68 NULL arguments: by computation, for every function.

Accessories:

* C54, C55 with read/write oracles, induction over the schedule.
* C56 byte-level arithmetic for both host byte orders.
* C57, C58 AES model with tables from the source; FIPS-197 written separately
  (field inversion and affine map, matrix MixColumns, key expansion).  Each step is brought
  into a closed form on 16 element lists; rounds by a relation between states and lists;
  the key schedule by an invariant over the loop counter.
* C71 (unpack of a short view) and C72 (big endian hosts) are false: refuted.
* C59, C76 CBC and PKCS#7 on the buffer model: the two loops by induction over blocks with a
  frame over the characters, then one lemma for dynamic and one for fixed buffers shared by
  encryption and decryption; the specification of CBC is over an arbitrary block cipher.
* C60, C61, C74, C75 are false: refuted; C61, C74, C75 have a `_partial`. C73 by
  computation.  C61_exact (CryptNeg.v) says for which contents decryption leaves a buffer at all.

Example program parse-uri (UriModel.v, UriSpec.v, UriProofs.v, PropsUri.v):

* C82 components composed by a separate writer (`compose`) are recovered; the parser is first related to a
  list function by the lemmas about strview (every view is a slice of the input), then computed on the forms.
* C84 the same relation for any text.  C83, C85 are false: refuted; C83_exact: the conditions of C82 are necessary, too,
  if only the path contains separators (`reasonable`); C85 holds for ASCII text,
  and C85_exact says for which texts it fails: the parser asks isdigit() about exactly one byte.
* C151 (UriMainModel.v, UriMainSpec.v, UriMainProofs.v, PropsUriMain.v) the rest of the program: main and show_uri.
  The output is a function of the components (`report`), which is injective on components without newlines: every
  line starts with its own name, so equal reports agree line by line.  The 27 demo strings are the documented forms.
* C152 (PortSpec.v, PortView.v, PortNum.v, PortBuf.v, PortPrnf.v, PortProg.v, PropsPort.v) what compilers may promise.
  For every function of the model, withdrawing promises (flags of `cfg`) changes the outcome only into `UB`. This is proved
  function by function, by induction for the loops; prnf carries a character handler in its state, so there the two runs are
  related instead of equal. Programs follow by induction. That two compilers agree even if neither promises more goes through
  the compiler that promises what either does. The claim is about the promises listed in Base.v; the sizes of types, the byte
  order and the signedness of char are the same on both sides (C147 to C149 compare different machines).
* C153 (IsoSpec.v, IsoProofs.v, PropsIso.v) the calls of view functions that ISO C leaves undefined, as a list
  (`iso_undefined`): the call fails if it is on the list (one lemma per function, as in C62 to C64), works in the strict
  configuration if not, and then has the result of a usual compiler by C152. Programs by induction. The list collects the
  findings C62 to C64, C13 and those about invalid views.
* C154 (IsoBufSpec.v, IsoBufProofs.v, IsoBufProofs2.v, PropsIsoBuf.v) the same for buffers (`iso_buf_undefined`). The lemmas about
  single operations are already stated for comparable pointers (C66); concatenation, and positions beside a fixed buffer in the
  same object, are proved again without a flat address space. The step of C43 then holds in the strict configuration for every
  other call. The finding: strbuf_create_init, and adding any text from elsewhere to a dynamic buffer, are undefined in ISO C.
* C155 (IsoAccSpec.v, IsoAccProofs.v, PropsIsoAcc.v) the same with the accessories: the steps of C108 other than packing do not
  use a flat address space at all (`xstep_acc`), and packing always compares a local variable with the buffer. The finding:
  strbuf_pack.h cannot be used in ISO C.
* C156 (IsoMixSpec.v, IsoMixProofs.v, PropsIsoMix.v) the same for the mixed programs of C149: one call is C153 or C154 with what
  the variables stand for at the time, programs by induction along the run on the usual compiler.
* C157 (NullProofs.v, PropsNull.v) NULL strings, NULL pointers to views and invalid views as arguments of strview.h and strbuf.h:
  the cases that C03, C04, C11 - C13, C36, C37 and C48 leave out, by computation on the model and as instances with an empty text.

The formatter prnf (PrnfModel.v: test/prnf.c as built without AVR program memory and with the defaults of
the repository; PrnfBufModel.v: prnf into buffers; PrnfSpec.v, PrnfSpec2.v; PrnfProofs*.v; PrnfFormat*.v; PropsPrnf.v, PropsPrnf2.v, PropsPrnf3.v,
PropsPrnfIeee.v):

* A format string is written from a list of items (text, conversions with flags, width, precision, length, columns);
  `printed` says which text the items stand for.  The scanner is proved to recover the items by induction over the
  list; the output functions by an invariant over the destination (array, NULL, handler).
* C86-C90, C93, C94 are corollaries per entry point; C91 composes with the parsers (C23, C24, C27), C92 follows the
  column counter through arbitrary text.
* C104-C107 the floating point operations of prnf are a record (`fops`); its instance `ieee` is Flocq's binary32 and
  binary64.  The number printed is followed through the roundings with absolute and relative error bounds.
* C146 (PrnfDouble.v, PrnfDoubleProofs.v, PrnfDoubleEng.v, PropsDouble.v) the same with PRNF_SUPPORT_DOUBLE: instance
  `dieee`, binary64 throughout except for the literals of pow10_tbl and FLT_MAX, which stay those of float.
* C158 (PrnfConfModel.v, PrnfConfSpec.v, PrnfConfProofs*.v, PropsPrnfConf.v, PropsPrnfConfIeee.v) builds without long long, floating point or column
  alignment.  `read_by` says which items an item is to a build; the scanner proof of C86 is done again for it.  Where the bytes of
  the format string contain nothing of what was switched off, the two models agree step by step, undefined behaviour included.
* C159 (PrnfExtModel.v, PrnfExtSpec.v, PrnfExtProofs*.v, PropsPrnfExt.v) the build with PRNF_SUPPORT_EXTENSIONS: %n prints a string
  and frees it.  The invariant of the scanner proof now carries two memories, the one the caller would see without the printed
  characters, in which the strings handed over die one by one, and the real one; it is proved once for an abstract destination
  (`sink`) and instantiated with an array and with no destination.
* C160 (PrnfExtBufModel.v, PrnfExtProofs4.v, PropsPrnfExtBuf.v) strbuf_prnf and strbuf_append_prnf in that build: the third instance
  of `sink`, a buffer that may move while the strings are freed (`kill_touches`).  PropsPrnfExtIeee.v instantiates C159 and C160 for
  formats with floating point numbers in IEEE-754 arithmetic.
* C161 (PrnfAssertModel.v, PrnfAssertSpec.v, PrnfAssertProofs.v, PrnfAssertProofs2.v, PropsPrnfAssert.v, PropsPrnfAssertIeee.v) prnf with a
  PRNF_ASSERT that stops the program: the loop of core_prnf returns whether it finished.  The simulation of the build as shipped is an
  induction on the fuel; the step over one item is proved again for the new loop, for items that do not trip an assertion, and the
  placeholder that trips one ends it; in IEEE-754 arithmetic scaling for %e keeps finite numbers finite.
* C162 (PrnfDefModel.v, PrnfDefSpec.v, PrnfDefProofs.v, PropsPrnfDef.v, PropsPrnfDefIeee.v) prnf with other default precisions: printing
  a placeholder is printing the placeholder of the build as shipped with the default filled in (`place_fill`); the induction over the
  format follows the items as written, what is printed follows the items with the precisions written out.
* C163 (PrnfLongModel.v, PrnfLongSpec.v, PrnfLongProofs.v, PrnfLongProofs2.v, PropsPrnfLong.v) prnf without long long and floating point
  where long has 32 bits: prnf_long_t and its digit buffer shrink.  Each placeholder is shown to print as in the build of C158 as long as
  the bytes of the format string ask for nothing wider; what a placeholder can ask for is read off the bytes (`parse_facts`).
* C164 (PrnfGlobalModel.v, PrnfGlobalSpec.v, PrnfGlobalProofs.v, PropsPrnfGlobal.v, PropsPrnfGlobalIeee.v) prnf() and prnf_out_fptr: the pointer is part of the
  state a handler can change, and is read when a call starts.  One call is C90 on that state, or a call without a function, for which
  the invariant is that nothing but the counters changes; programs by induction on their statements.
* C165 (PrnfReturnModel.v, PrnfReturnSpec.v, PrnfReturnProofs.v, PrnfReturnProofs2.v, PropsPrnfReturn.v, PropsPrnfReturnIeee.v) prnf with a
  PRNF_ASSERT that returns: the loop of core_prnf counts its calls.  A simulation by induction on the fuel relates it to the build as
  shipped and to that of C161 at once; the exact count follows the items of the format as in C161.
* C166 (PrnfWarnModel.v, PrnfWarnSpec.v, PrnfWarnProofs.v, PropsPrnfWarn.v, PropsPrnfWarnIeee.v) prnf with a PRNF_WARN that is a handler:
  the loop over the flags counts its calls.  Simulation with the build as shipped by induction on the fuel; the count by induction on the
  flags of a placeholder and on the items of the format; that the flags are ignored from the specification of the text.
* PropsCases.v holds no property: further concrete cases for the theorems of C02 to C48 whose hypotheses the examples beside them
  meet only in part.
* C147 (SameSpec.v, SameProofs.v, PropsSame.v) simulation between two runs of the meaning of programs (HistSpec.v), for two
  platforms: the texts of all variables and the capacities of fixed buffers agree, strbuf_shrink and strbuf_grow are silent steps.
  With run_ok (C43) on both sides it becomes a theorem on two runs of the model.
* C148 (ViewProg.v, ViewProgProofs.v, ViewProgProofs2.v, PropsViewProg.v) programs over any number of view variables: every call of
  the model gives, in both runs, the same cut (place and length) of its source; simulation by induction over the program, the
  relation being that the variables are the same parts of the same texts. Safety is the same theorem with both runs equal.
* C149 (MixSpec.v, MixProofs.v, MixCheck.v, PropsMix.v) programs that mix both kinds of calls. Beside the state runs its meaning: the
  texts of the buffers and, for every view variable, a name (nothing, a piece of text k, a piece of buffer j, stale). One step keeps the
  relation between both (step_full for buffers, vcall_agree for views), and two runs keep the same names. The rule of use is decidable
  (MixCheck.v), which is how the examples meet it.
* C150 (TableSpec.v, TableProofs.v, PropsTable.v) a table of numbers and quoted texts, written by a program of the mixed histories (C108)
  and read by a program over strview.h and strnum.h, both part of the specification (users' code, no code of /repo). Writing is followed
  through the phases of ChannelProofs.v; reading by the first unquoted delimiter of each cell, C27 for the numbers and the line splitting
  of C16. The text determines the table, proved on lists without the reading functions.
* C95-C103, C105, C106: false as documented, each refuted, with a `_partial` for the cases that hold.
* PropsPrnf2.v says exactly what happens where C95, C99, C101-C103 fail.  The formats specified also contain placeholders
  of unsupported types (C136, `Other`) and columns without a character to fill them (C137, `Bare`); a format that ends
  inside a placeholder is one whose NUL is taken as such a type.
* C138 by induction over its length, every string is written from items (numbers may have leading zeros, a placeholder of
  an unsupported type ends at the first character that cannot continue it), or from items followed by a placeholder
  without a type, a number beyond INT_MAX or an unsupported number of digits.  These three are undefined behaviour
  in every format (C101, C138, C97).
* C139 (PrnfView.v) PRIstr is an item with the string that starts at the view; without a NUL prnf_strlen leaves the object.

Programs that use everything together (HistSpec2.v, StrbufHistory2.v, ChannelSpec.v, ChannelProofs.v, PropsHist.v):

* C108-C110 the histories of C42-C46 (an abstract machine of slots, each a list of characters with capacity and
  allocator; simulation by induction over the program) with the accessories and prnf as further operations; a prnf
  argument may be the text of another buffer.
* C111, C112 sender and receiver are two such programs with separate configurations and memories; phases (pack,
  encrypt, write, read, decrypt, unpack) are composed on the abstract machine and carried over by C108.

The default allocator and the other example programs (ExamplesModel.v, ExamplesSpec.v, ExamplesProofs*.v, PropsExamples.v):

* C113 allocfunc_stdlib on a model of the C heap refines the allocation primitive of the buffer model; its contract is
  written separately (`held`, `granted`).
* C114 the heap programs by composing the theorems per operation, with an invariant for the appends (list of words of
  any length); `no_trace` says that memory is as before.
* C115, C116 automatic and static objects are blocks of the memory; sequences of calls by induction.
* C117 options by induction over the command line; lines from the parser theorems (C23, C24, C29); on every text from
  the exact grammars (ExamplesProofs4.v, PropsNumTest.v).

The documentation (DocsModel.v, DocsProofs.v, PropsDocs.v): idioms that README.md, docs/ and the headers recommend, as
programs over the modelled functions, and statements of the documentation that disagree with the code.

* C118-C120 statements that are false; what the code does instead is proved for all arguments.
* C121, C122 find composed with split; the field loop by induction over the fields (specification `fields` in Spec.v).
* C123 assigning a part of a buffer to itself: the result fits, so the allocator is never called (any oracle).
* C124, C125 insertion with the buffer as its own source, composed from C35-C41.
* C126 for every function `use` given as a parameter of the theorem, under the only assumption that it works on a C
  string in otherwise unchanged memory.

Buffers with enough room (ReserveSpec.v, ReserveProofs.v, PropsReserve.v):

* C127 two runs of the same program with different allocators agree as long as the allocator is not consulted (relation
  `twins`, by induction over the program); one of them is the run of C43.

How often the allocator is called (CallsSpec.v, CallsProofs.v, PropsCalls.v):

* C140 every decision of the allocator is taken from a list in order, so the calls made are the entries used up; the count
  per API call is added to the simulation of C42, the bound is a potential argument over the steps of the capacity.

Precisions passed as arguments (PrnfPrecSpec.v, PrnfPrec.v, PropsPrec.v, PropsPrnfIeee.v):

* C141 two formats that differ in one placeholder print the same text if the items have the same meaning; a negative
  precision of a string makes the loop of print_str leave the object (induction over its iterations).

Formatted text that contains the buffer's own text (PrnfOwnSpec.v, PrnfOwn.v, PrnfOwn2.v, PropsOwn.v):

* C142 a format is a list of pieces, some of which point into the destination; `unrolled` prints each with the contents
  of that moment. The invariant over the pieces is that the buffer holds the old contents and all text so far, and that
  the own string being printed is a prefix of what follows its pointer. A move frees the block the pointer is in.

Types that can be packed (PackTypeModel.v, PackTypeSpec.v, PackTypeProofs.v, PropsPack2.v):

* C143 the associations of xendian_SWAP for any choice of types in stdint.h; case analysis over platforms and types,
  and the byte arithmetic of C56 for what is packed.

Spellings of the same number (SpellSpec.v, SpellProofs.v, SpellIeee.v, PropsSpell.v):

* C144 a `spelling` is turned into text and read back by the grammar of C29; zeros in front are swallowed by the first
  64 bit piece and zeros behind the fraction are trimmed, so the operations carried out are the same, by induction over
  the zeros, whatever the arithmetic is.

Lines received through a buffer (LineModel.v, LineSpec.v, LineProofs.v, PropsLine.v):

* C145 the loop of the test suite, and the same loop around strbuf_append_read, as programs of the modelled functions;
  the environment is a file and a list of events. Invariant over the turns: the buffer holds a suffix of what was received
  without a complete line, and the lines still to come are those of `drop_half e (rest ++ what comes)`. Progress: a rest
  without line end is at most one character longer than the longest line.

The number parsers on every text (NumSpec2.v, NumB0Proofs.v, NumDocsProofs.v, PropsNum2.v):

* C28, C29, C31 exact: `parse_int_exact` and `read_float_exact` add the two bytes that count as binary digits and the
  misspelt word to the grammar, so the theorems need no assumption about them.
* C130 (ReadBackProofs.v, PropsReadBack.v) composes the error analyses of prnf (C104) and strnum (C78): a double printed
  with %f and read back; exact for whole numbers below 2^24 (C106 with C77); false for numbers float cannot hold and for OVER.
* C131-C135 (MacroModel.v, MacroProofs.v, PropsMacro.v) model the preprocessor layer: PP_NARG as selection of the 128th of the
  arguments followed by the transcribed numbers, `_Generic` as selection by a tag of the argument (the association list of
  strnum_value as tokens, parsed by the grammar of C11), sizeof of a literal. The theorems compose the selection with
  the contents-level specifications of the selected functions (C02, C03, C05, C06, C08, C23, C24, C29, C34, C36, C37, C39, C48).
* C128, C129 follow from these; statements of strnum.h that are false, with what holds instead.

## 2b. Findings (theorems ending in _refuted)

Where the failing cases can be told apart from the others, PropsExact.v (ExactProofs.v, ExactProofs2.v, StrictNum.v) proves that
the claim fails in every one of them, not only for a witness: C18, C20, C32, C33, C62, C63, C64, C65, C66, C67, C71, C96, C98, C100.
C64_strict_exact compares the parser of a strict platform with the one of the same platform with a lenient isdigit()
(`lenient`): they agree unless the digit test is made on a byte of 128..254.

* C07 an invalid view matches a valid empty view in strview_is_match although documented otherwise.
* C18 split_line with a pending half terminator consumes input although it returns no line.
* C20 strview_dequote only checks that the quote character occurs; "aba" becomes "b".
* C62, C63 find_last and split_last_delim form a pointer before the start of the object.
  `room` (Spec.v) says when they do not; the `_strict_partial` theorems need only that.
* C28 isbdigit() tests (c & 0x7E) == 0x30, so the bytes 0xB0 and 0xB1 count as digits.
* C30 integral parts of three or more chunks: the accumulated result is multiplied by
  10^remaining at every chunk, so the first chunk is scaled too often. The value is the number written exactly if
  there are at most two chunks, and over nine times too large otherwise (StrnumPieces.v, C30_any_length_partial).
* C31 the word searched for is "infinty", so "infinity" leaves "inity" in the source.
  A text that starts with "infinty" is an infinity and loses the character behind the word as well.
* C128 only the space is skipped: tab, newline, etc. before a number give EINVAL although strnum.h says white space.
* C130 prnf computes in float: 16777217.0 printed with %.f reads back as 16777216; 2^55 printed with %f is OVER, which cannot be read.
* C131 strbuf_cat is documented for an arbitrary number of views; with 128 or more it does not compile.
* C133 strnum_value has no association for signed char* (int8_t*), and with STRNUM_NOFLOAT its association list ends in a
  comma, so that no use of the macro compiles.
* C129 an exponent that does not fit an int is ERANGE even if the number is 0 or tiny ("0e99999999999").
* C32 "0e400": 0 * inf = NaN is stored, and success reported.
* C79 "0.3" gives 0.30000000000000004 (3 * pow(10,-1)), even if pow() is correctly rounded.
* C80 "0.01e309" is ERANGE (pow(10,309) is infinite), "10000000000000000000e-324" is stored as 0 with
  success although its value is 1e-305.
* C33 strnum_consume_float dereferences a NULL source (double and long double return EINVAL).
* C64 isdigit() receives negative chars.  C65 "inf" leaves an invalid source view.
* C49 strbuf_strip with a strip set inside the buffer: the set changes while it is used.  C49_strip_own gives the exact result.
* C51 a negative vsnprintf result is added to the size: -1 for an empty buffer, otherwise the
  last character is dropped without a new terminator.
* C66 buf_contains_str compares, and insert_strview_into_buf subtracts, pointers to different objects.
  `comparable` (BufSpec.v) says when they do not: flat address space, or source and buffer in one object.
  All insertion theorems (C36, C37, C40, C41) need only `comparable`.
* C67 strbuf_create and strbuf_grow do not round the capacity.
* C69 add_will_overflow_int detects the overflow by performing it.
* C70 a NULL from the allocator is dereferenced by create_buf and change_buf_capacity.
* C71 STRVIEW_UNPACK copies sizeof(type) bytes whatever the size of the view.
* C72 aes_init rotates tmp.v32 as an integer: on a big endian host this is not RotWord, so the cipher
  text differs from AES (encryption and decryption still invert each other, C58).
* C60 strbuf_crypt never assigns its return value: both functions return STRVIEW_INVALID.
* C61 dec256cbc subtracts the last byte of the plain text from the size without a check.  The
  size can become negative, and the terminator is then written into or before the header.  With
  less than one block of contents buf[-1] is read.
* C74 strbuf_decrypt demands room for the next block although the text gets shorter, so in a
  fixed buffer of the size that encryption needed it silently does nothing.
* C75 cypher_size overflows for sizes from 2147483632.
* C83 parse_uri decides by the first ':' and '@' anywhere: "http://github.com/a:b" gives scheme
  "github.com/a", "http://medium.com/@user" gives user "medium.com/", "tel:5551234" gives host "tel".
* C85 parse_uri passes a char to isdigit(): undefined exactly for texts with one of the bytes 128 to 254
  directly behind the first colon after scheme and user (signed char, strict ISO C).
* C95 %5c ignores the width.  C96 %05d of -42 prints "00-42".  C99 %+u prints no plus sign.
* C97 %.0x, %.17x and %.0o, %.65o shift by an amount outside of the type.
* C98 %.3s measures the string up to its NUL before it is cut to 3 characters.
* C100 %ld of LLONG_MIN overflows.  C101 a format ending in '%' is read past its NUL.
* C102 snprnf converts the size to int: with 2147483648 only a NUL is stored, with 4294967300 the limit is 4.
* C103 columns count bytes from 32 to 127, and bytes above only where char is unsigned.
* C143 STRBUF_PACK_BE of a char or (on 64 bit Linux) of a long long does not compile on a little endian host although
  primitive types are said to be supported; STRBUF_PACK_LE of a float does although it is said to be an error.
  STRBUF_PACK_LE(&b, tmp) packs an uninitialised variable.
* C146 with PRNF_SUPPORT_DOUBLE the table of powers of ten is still written with float literals (1E11F ...), so %.11f of 1
  prints 0.99999997952, and finite numbers above FLT_MAX are printed as INF.
* C158 without long long or floating point the values meant for %lld or %f are not skipped: the placeholders behind them find
  the wrong arguments.
* C163 where long has 32 bits and long long is switched off, %d of INT_MIN negates it as a long, which overflows (strictly read);
  %.9x and %.33o shift by the width of the type or more; %zu of a 64 bit size_t reads an int.  The guard against the last, prnf.c:29, compares
  SIZE_MAX with ULONG_NAX (sic), an undefined name that counts as 0: it warns on every platform.
* C165 prnf.c:529-531 does not skip the L or j it reports: they are met again as a type and reported a second time, and the type
  behind them is printed as text (%Ld prints d).
* C159 prnf.h:277 says that %n is like %s, but is_centered_string (prnf.c:1028-1035) lists only TYPE_STR and TYPE_PSTR, so %10.0n
  prints blanks only.  snprnf(NULL, 0, "%n", s) frees s, so measuring and then printing is a use after free.
* C161 A format that ends inside of a placeholder (C101) is caught by an assertion handler before anything beyond the format string is
  read; so is every unsupported placeholder of C136.  A number of decimals given as argument that is negative stops the program if it
  is above 19 modulo 256 (-1 is 255), although the build as shipped prints 19 decimals.
* C160 strbuf_prnf and strbuf_append_prnf without a buffer return before prnf is called, so strings handed over with %n are not
  freed (C160_no_buffer_leaks); with a buffer that is too small they are.
* C145 strview_split_line with eol leaves the second half of a CR LF in front of the next line until that line is
  complete, so a fixed buffer needs two characters more than the longest line, not one, or reading gets stuck.
* C144 "0.3e1" is stored as 3.0000000000000004: the fraction is scaled with a rounded power of ten before the exponent
  is applied, so moving the point changes the value.
* C142 strbuf_prnf(&b, "%s", b->cstr) empties the buffer, strbuf_append_prnf(&b, "x%s", b->cstr) turns "ab" into "abxabx",
  and if the buffer moves while it grows the rest of its own text is read from freed memory. The document says that
  all buffer operations but strbuf_cat can read their destination.
* C141 a negative precision argument is used as it is: %.*s copies about 2^32 characters from behind the string
  (or overflows an int), %.*f with -1 prints 19 decimals, %0*.*d loses the 0 flag, %.*x pads and shifts by garbage.
* C140 the capacity grows by a constant step (16), not by a factor: n characters appended one by one, or printed with
  strbuf_prnf, cost n/16 reallocations of up to n bytes each.  strbuf_append of the same text costs one.
* C139 prnf reads behind a view printed with PRIstr until it finds a NUL.
* C138 a column, width or precision beyond INT_MAX in a format overflows an int.
* C137 a control character, or a byte above 127 where char is signed, does not fill a column: nothing is filled.
* C105 %e of 999999.6 prints "1000k".  C106 %f of 16777215 prints "16777214.976" (the product with 1000 is rounded
  to 24 bits).  C107 -0.000001 with %.2f prints "-0.00".
* The allocator shown in the comment of strbuf.h (204-214) calls realloc(p, 0) to free, which ISO C leaves implementation
  defined (C23: undefined); allocfunc_stdlib and the examples call free (C113).  It also has a signature with more
  parameters than the type of the member.
* C118 docs/strview-api.md says that strview_split_index returns an invalid view for an index out of range; it splits
  everything off, as strview.h says.  C119 strview.h says that strview_split_right returns an empty view for a position at
  the start of the source and an invalid one for a position outside; only the end of the position counts.
  C120 strview.h says that an invalid view compares less than any valid one; it is equal to an empty one.
* docs/strview-api.md describes strview_split_first_delim_nocase and strview_split_last_delim_nocase, which do not exist.
* Not counted as wrong, since documented: strbuf_cat of a fixed buffer from itself empties it (C39);
  insert_before/insert_after with a view outside the buffer does nothing and reports nothing (C37).

## 3. Trusted base

* Coq's kernel (and coqchk).
* `Print Assumptions` is placed below each property theorem.  All theorems outside of
  `PropsIeee.v`, `PropsPrnfIeee.v`, `PropsReadBack.v`, `PropsSpell.v`, `PropsDouble.v`, `PropsPrnfAssertIeee.v`, `PropsPrnfExtIeee.v`, `PropsPrnfConfIeee.v`, `PropsPrnfDefIeee.v`, `PropsPrnfGlobalIeee.v`, `PropsPrnfReturnIeee.v` and `PropsPrnfWarnIeee.v` print "Closed under the global context".
* The theorems of `PropsIeee.v`, `PropsPrnfIeee.v`, `PropsReadBack.v`, `PropsSpell.v`, `PropsDouble.v`, `PropsPrnfAssertIeee.v`, `PropsPrnfExtIeee.v`, `PropsPrnfConfIeee.v`, `PropsPrnfDefIeee.v`, `PropsPrnfGlobalIeee.v`, `PropsPrnfReturnIeee.v` and `PropsPrnfWarnIeee.v` use real numbers (Coq.Reals through Flocq) and list exactly these standard
  library axioms: `ClassicalDedekindReals.sig_forall_dec`, `ClassicalDedekindReals.sig_not_dec`,
  `FunctionalExtensionality.functional_extensionality_dep`, `Classical_Prop.classic`.
* The transcription of C into Gallina, described in the comments of the model files.

## 3b. Evidence that the model is the code

- Every model function cites the lines it models; the proofs never look at a function other than through its definition.
- `TestSuite.v` runs the upstream test suite (/repo/test/test.c, all tests) on the model by computation: the same calls on
  the same texts give the results that test.c asserts. These are tests, not proofs, and no claim rests on them; they would
  show a model that differs from the code where its authors looked. printf() output is given in these tests, prnf's output
  too (prnf itself is modelled in `PrnfModel.v`), and pow() is taken to be correctly rounded.
- `seeded/LOG.jsonl` lists the wrong programs that the theorems were tried against.  `theorems_failed` are those whose proofs
  depend on a lemma whose script no longer goes through on the edited model.  That is evidence, not proof, that the theorem
  is false of it: two equivalent edits (StrbufModel-42, Format-16) stop scripts as well.  `theorems_not_built` are theorems
  that were not reached because something below them did not build.

## 4. Not modelled

* C++ compatibility of the headers. The macros with argument counting and _Generic selection are modelled (MacroModel.v): a
  preprocessor argument is a token, a type is one of a finite list, a program that violates a constraint of C is None.
* libc formatting (vsnprintf): an oracle producing a byte sequence.
* prnf: AVR program memory (%S is %s);
  of the configuration switches an assertion or warning handler that returns after changing what prnf works on, and
  floating point with PRNF_SUPPORT_LONG_LONG off where long has 32 bits (the others: C146, C158-C163, C165, C166; the extension %n, the assertion
  handler, the warning handler and the default precisions are each modelled with the other switches as shipped).  A variable argument list is a list of values of
  the promoted types; reading past it or with another type is UB.
* Example programs: the fixed words around the texts printed, DBG lines, reading lines from stdin, the way printf
  writes the values in testnum.
* Concurrency (the library has no shared state apart from the default allocator and prnf_out_fptr).
* Libm `pow`: abstract; a hypothesis on its accuracy in C77-C81.  Extended precision evaluation
  (FLT_EVAL_METHOD other than 0) and other rounding modes than to nearest.
* AES: `ctx->key[0].ks + 4*i` is taken as an offset into the whole 240 byte context (the code indexes
  past the 16 byte member array).
* strbuf_crypt: key and IV are lists of bytes (arrays outside of the modelled memory); the two local
  arrays of dec256cbc are values; the AES context is written at once.
