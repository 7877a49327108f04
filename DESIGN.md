# Formal model of LayoutIdentificationAlgorithm in Rocq/Coq 8.16.1

Sections 1 and 2 were written before the proofs and extended as the model grew; sections 3 to 6 describe
the finished state.

## 1. Approach

Every C++ function is re-read and written as a small total Gallina function.

* Result type `res A := Ok a | Throw e | UB u`: normal return, C++ exception, undefined behaviour.
  Undefined behaviour is a *distinct outcome* (out-of-range `operator[]`, iterator past the end,
  over-wide shift, signed overflow, null dereference, static_cast to a wrong class, double delete,
  reading an indeterminate value, division by zero, float-to-int overflow, buffer overflow, stack
  exhaustion, a loop that never ends).
* `std::string`, `std::vector<Byte>`: `list byte` (`Coq.Init.Byte`, 256 values). `char` is signed
  (x86-64 gcc/MSVC): promotion to int goes through `schar`.
* `size_t`/`uint32_t`/`int32_t`: `Z` (or `nat` for pure indices) with the wrap or the overflow check
  written out where the code can reach it.
* `double`: Flocq `binary_float 53 1024`, round to nearest even; the code's operation order is kept.
  Decimal literals are the doubles nearest to them.
* Heap allocation failure: an explicit `allocator` argument (oracle) decides whether and where
  `Vector2D::Resize` throws `bad_alloc`.
* Over-wide shifts: strict C++ (UB) and x86-64 (count mod 64) are both modelled, by a `shift_rule` argument.
* Reading the size of the row of an empty `Vector2D` (generator): strict C++ (UB) and "the read
  happens and finds some number" are both modelled, by a `stray_read` argument.
* Objects: methods are functions from the old object to `res` of the new one; a method that can throw
  after changing the object returns the object as well.
* Files: a finite map from names to contents plus oracles for open/write faults, and the list of
  intermediate states for crash points.
* Recursion over references: the call depth is the fuel; running out of it is `StackOverflow`.
  Loops without an obvious bound run through `M_Loop.loop`, whose exhaustion is `Diverges`; the
  theorems show that `Diverges` does not occur.

Files in `rocq/theories`: `M_*` model (definitions only, each with a file:line citation), `S_*`
specification vocabulary that does not use the model's helpers, `P_*` lemmas, `Props_*` the property theorems
(named `Cnn_...` after the property), non-vacuity examples and `Print Assumptions`.

## 2. Plan per property

| Area | Properties | Model | Proof technique |
|---|---|---|---|
| ByteHandler | C01-C03 | bytes, 32-bit masks, loops with fuel 8/64 | finite sweep over 256 bytes, induction on the 64-bit loop, arithmetic |
| BitMatrix | C04-C10, C14-C18, C87 | record of byte rows + sizes, methods one by one | representation invariant; each method against an abstract `nat -> nat -> bool` array; induction over histories; witnesses for UB |
| Ratios, comparison | C11-C13, C67 | IEEE doubles (Flocq) | exactness of counting, correct rounding of the quotient, monotonicity |
| Vector2D | C19 | list of lists | induction |
| CRC | C20-C21 | table literal, table-driven loop | table = 8 bit-steps (256 entries), GF(2) linearity, injectivity of the register map |
| Flipped bits | C99, C100 | as CRC, Base64, hash | order of the polynomial (2^32-1, by matrix powers and its five prime factors); tables of up to 2^20 register values checked by the kernel; the positions of the flipped bits are quantified |
| Layouts that differ a little | C101-C103 | as Process, ==, Compare | union of the objects (C52) and near/covered cells (C68, C69); counting of the cells of a rectangle with and without a rim |
| Stored bitmaps as references | C104 | Process, FlushFile, ReadFile, Compare composed | C39 and C84; comparison depends on the visible cells only |
| Exact cells, scaling | C105, C106 | as Process | error analysis of the cell-index quotients (Flocq): the quotient of edges that are clear of halves, or whole-unit cells, cannot cross an integer or half; then exact iff per cell |
| Ranking, confusion | C107, C108 | as Compare | two roundings of at most 2^-53 each against a spacing of 1/n; Hamming distance is a metric (induction over the cells) |
| Growing rectangles | C109 | as Process | from the exact cells (C105): case analysis on covered and overshot cells |
| The covered area | C110 | as Process | from the exact cells (C105): with clean ends no cell is overshot |
| Turning over | C111 | as Process, Compare | rounding is odd, so the test for covering rectangles and the index ranges are exchanged; then induction over the drawn shapes; exchange of a double sum for the score |
| Random fill | C112 | Randm over an arbitrary sequence of draws | loop invariant: the number of draws is the row-major index |
| Sharing | C113-C117 | generators, layouts and bitmaps as objects in a store; programs as lists of steps (M_Shared) | simulation of the value model by induction over the program; invariants on who holds which pointer |
| Moved-from matrices | C118 | existing BitMatrix model | the loop of ^ runs over the rows the left operand still holds (none); zero matrix results C04, C11, C12 |
| Accepted hashes | C119 | existing hash model | section-by-section inversion of DecodeHash; bit-level characterisation of the size field (S_HashAccept) |
| Exact run-length text | C120 | existing RLE and hash model | one maximal run at a time; optimality by a cost function that one byte changes by at most 1 (S_RleExact) |
| Storage for hashing | C121 | M_Reserve: string reservation against an arbitrary limit and heap, Encode, EncodeHash and FlushFile with it | reduction to the case with room (M_Rle, M_Hash), case analysis of the reservation |
| Algebra of ^ and scores | C122 | existing matrix and score model (S_Metric) | from C10 and the exact score of P_Ratio; counting cells |
| Forged checksums | C123 | existing CRC model | linearity: the bit-by-bit division is invertible, so the four bytes are the solution of a linear equation |
| Base64 in pieces | C124 | existing Base64 model | the decoder's relation `reads` composes over whole groups |
| Cut MSK files | C125 | existing MSK and sscanf model | every prefix of a well-formed line is classified (S_Cut) by the place where it ends; sscanf on each class |
| A library of stored references | C126 | existing hash, disk and generator model | induction on the sequence of FlushFile calls (S_Library) over C39/C40; ranking from C107; recognition from C83, C85, C104 |
| Cut GDSII files | C127 | existing GDSII model | induction over the grammar of S_GdsiiFile: for every record, every proper prefix of its data is read to the end of the text with a known outcome (P_GdsiiCut) |
| Two resolutions | C128 | existing generator model | from C68 and C69: near a set cell lies a rectangle, and a segment of a cell's length contains a centre (S_Resolution) |
| Layouts drawn slightly differently | C129 | existing generator model | the cells in which the bitmaps differ lie along the edges (C68, C69); counting cells along lines (S_Wobble) |
| Settings of a zond; cells without size | C130, C131 | existing zond model, histories of setter calls (S_ZondUse) | induction on histories from the end; exact arithmetic with zero deltas |
| Noise and the ranking | C132 | existing generator, score and disk models | C129, triangle inequality of the number of differing cells, C107, C126 |
| Nudged MSK files | C133 | existing MSK reader, generator and score models | C83 (from file to bitmap), C129 (wobble), correspondence of the two lists of rectangles |
| Recognition with errors | C134 | existing MSK reader, generator, score and disk models | C83, C132 (found in the library), C133; a tie refutes the bound T |
| Mirror images and quarter turns | C135 | existing generator, MSK reader and score models; images of points, rectangles and cells in S_Mirror | C68, C69 (covers and near are symmetric), the counting of C129, for all eight symmetries at once |
| Running out of memory while a matrix is copied | C136 | M_Copying: the assignments and copies with a heap that refuses after any number of rows; two-state mixture of rows | C02, C31 (shows) |
| A damaged library and a search in it | C137 | existing disk, hash and score models; kinds of damage and the searching program in S_Damage | C38, C40, C100 (rejection), C107 (scores), induction over the names with the best so far; C132 |
| Windows of a sheet | C138 | existing generator, MSK reader and score models; windows and blocks in S_Crop | C68, C69, C83 (covers and near in both boxes), the counting of C129 |
| Libraries of several sizes | C139 | the models and the searching program of C137; sizes in S_Mixed | C12 (score -1), C107 (scores), a cost that orders other sizes last, induction over the names |
| Settings that are not numbers | C140 | existing zond model; NaN, infinity and the cells surely inside in S_NotANumber | evaluation of the comparisons with NaN and infinity, floors, the loops of C46 |
| Base64 | C22-C29 | encoder/decoder as recursion by 3/4 | RFC 4648 bit-level spec; pairwise byte sweeps + induction; CRC results for integrity |
| RLE | C30-C33 | loops over rows/columns and bits | loop invariant "expanded output ++ pending run = bits read so far" |
| Hash and files | C34-C40 | string assembly / slicing, size field with sign extension | composition of the above; exact arithmetic of the OR of sign-extended bytes |
| Workspace, zond | C41-C47, C89 | doubles | Flocq correctness theorems, case analysis on the branches |
| Generator, fragments | C48-C52, C88, C91 | state record, one function per method | invariants over call histories, fold lemmas |
| Splitting into fragments (private helpers) | C95-C98 | loops over the grid of fragments, list iterators | generic lemma on double loops; rounding errors of the edges; induction on the walk over the list |
| Converter | C53-C56 | geometry records, element heap, stack depth as fuel | induction over coordinate lists / depth |
| From Init to the bitmap | C68-C71 | composition of the above | error analysis of the positions (relative error 2^-53 per operation), lifted through the loops |
| MSK reader | C57-C62, C72, C73, C81, C82 | sscanf interpreter, line loop, heap discipline of the elements | print/parse round trip by induction; invariants over lines; histories of reader calls |
| MSK file to bitmap, identification | C83-C86 | composition | relational proofs about two executions |
| GDSII numbers | C63-C65 | byte images, doubles | arithmetic, Flocq |
| GDSII reader | C66, C74-C80 | stream with good/eof, one function per record handler, record loop | induction over the bytes left; record-by-record simulation of well-formed files; post-processing by list induction |
| Ownership | C92-C94 | heap of objects with addresses, destructors and MSK reading on it | characterisation of the destructors by induction over the graph; simulation between the pointer-level and the value-level reader |
| Printing objects | C90 | text of a rectangle | digits by induction, unambiguous splitting |

Properties that turn out false of the code are kept in their exact form (what holds, and where it
stops holding), with a `..._refuted` theorem exhibiting the witness where the natural claim fails.
All properties can be expressed in the model; none is marked `not_applicable`, and there is no `_partial` theorem.

## 3. Trusted base

* The kernel of Coq 8.16.1 (including `vm_compute`, used for finite sweeps and examples; no
  `native_compute`, no plugins, no kernel check switched off).
* Axioms: only those of Coq's standard library.  `ASSUMPTIONS.md` (generated by
  `tools/assumptions.py`) gives what `Print Assumptions` lists for every property theorem: nothing for about
  two thirds of them; for those that involve doubles (through Coq's reals, which Flocq uses to specify
  floating point) some of
  `ClassicalDedekindReals.sig_forall_dec`, `ClassicalDedekindReals.sig_not_dec`,
  `FunctionalExtensionality.functional_extensionality_dep`, `Classical_Prop.classic`.
  A checker that walks over all libraries that are loaded also meets the parameters of the sealed modules of
  `Coq.Reals` (`Rdefinitions.RbaseSymbolsImpl.*`) and of `Coq.ssr.ssrunder`; these are module-type fields with
  implementations in the standard library, not axioms, and `Print Assumptions` does not list them.
* Libraries: Flocq 4.1.0 (definitions and theorems about `binary_float`), Coq's standard library.  No
  mathcomp, std++, Iris, Equations.
* That the model says what the code does: every definition cites the lines it models; simplifications are
  listed in the comments and below.
* The C++ implementation is assumed to be x86-64 (signed 8-bit `char`, 32-bit `int`, 64-bit `size_t`, IEEE
  doubles without extended precision).

## 4. What is modelled

| File in /repo/src/Common | Model |
|---|---|
| Impl/ByteHandler/ByteHandler.cpp, Include/ByteHandler.h | M_ByteHandler: all functions |
| Impl/Vector2D/Vector2D.cpp, Include/Vector2D.h | M_Vector2D: all member functions (the template at the types used) |
| Impl/BitMatrix/BitMatrix.cpp, Include/BitMatrix.h | M_BitMatrix, M_Ratio, M_Print: all member functions and operators; `Randm` with the engine's draws as an argument |
| Impl/RunLengthEncoding/RunLengthEncoding.cpp | M_Rle, M_Ratio: all functions |
| Impl/Hash/Crc32/Crc32.cpp | M_Crc32: the table and `CalcHash` |
| Impl/Base64/Base64.cpp | M_Base64: all functions |
| Impl/LayoutMatrix/LayoutMatrix.cpp, Include/LayoutMatrix.h | M_LayoutCore, M_Hash: constructors, assignments, hash, file operations; `WorkspaceCoords` in M_Zond |
| Impl/LayoutBitmapZond | M_Zond: all functions |
| Impl/LayoutConverter | M_Converter: `PathToRectList`, `SplitSref` and their helpers |
| Impl/LayoutBitmapGenerator | M_Generator: everything the public interface reaches; M_Shared: the pointers to layouts and bitmaps, copies; M_Partition: the private functions nothing calls |
| Impl/LayoutFragment | M_Generator: everything but the two lists of geometries, which are only appended to |
| Impl/LayoutReader/LayoutReader.cpp, ReaderImpl/MskReader.cpp, Include/MskReader.hpp | M_Scanf, M_Msk: all functions; `Read` again at the level of pointers in M_Ownership |
| Include/LayoutData.hpp | M_LayoutData: the classes as values; M_Ownership: destructors and implicit copies |
| Impl/LayoutReader/Helpers/GDSIIHelperFunctions.cpp | M_GdsiiHelpers: all functions |
| Impl/LayoutReader/ReaderImpl/GdsiiBinaryReader.cpp, Include/GdsiiReader.hpp, GDSIITypes.hpp | M_Gdsii: all functions |
| Impl/UnitTests/LayoutPrinter/LayoutPrinter.cpp | M_Printer: all functions |

## 5. What is not modelled, and simplifications

* `shrink_to_fit`, capacities, time and memory use; `reserve` and allocation failure outside `Vector2D`, the
  reservation of the run-length encoder (C121, M_Reserve) and the copies of matrices (C136, M_Copying: rows
  replaced in order, any number of them before the refusal).
* The random generator behind `Randm` (its draws are an argument); failures of `std::cout`; the text of
  exceptions.
* `Include/LayoutProcessor.h` (declares a class that is defined nowhere) and the unit tests themselves.
* Concurrency: the code starts no threads, and no function is documented as thread-safe.
* MSK reader: `delete` through a base-class pointer without virtual destructor (`LayoutReader`, `Geometry`) is
  formally undefined and treated as harmless; read errors in the middle of a file; the uninitialised
  `Layer::dataType` is an arbitrary value given as an argument; `%d` with a number that does not fit in `int` is
  undefined behaviour; the locale is "C"; narrowing of file names keeps the low eight bits of each character.
* GDSII reader: `pow(16, n)` is exact, type punning through the unions works as on x86-64; a second `Read` on
  a reader object that still has records open is not modelled (such a reader cannot exist: C66).
* Ownership is modelled for layouts and the MSK reader (M_Ownership); addresses are never reused, the memory of
  the members of an object (strings, vectors) goes with the object.
* Paths and references: pointers never dangle (the element heap is a list; null pointers are modelled).
* The order of a `std::set<int16_t>` is immaterial: it is a list, only used for membership.

## 6. Deviations of the code from what one would expect (all of them theorems)

* ByteHandler: bit access to arrays is broken (C03). BitMatrix: range and column checks off by one (C07, C08);
  `==` and `!=` both true (C11); moved-from objects keep their sizes (C14); the last partial byte is lost in
  `Serialize` (C15, C16); a short input string overruns (C17, C18).
* Base64: any text is decoded (C24); a zero checksum breaks the radix-64 round trip (C28). RLE of strings
  cannot be decoded (C33). The size field of a hash loses sizes with bytes above 127 (C34).
* Files: flushing truncates first, a short write is reported as success (C40).
* Zond: `SetEps` tests the old value (C42); a rectangle that begins left of or above the workspace aborts
  (C45, C70); rectangles grow by up to one cell at their ends (C47), so a larger rectangle can lose a cell (C109); drawing into a part of a matrix applies
  the offset twice (C89); polygons are never drawn (C43, C71).
* Generator: `Init` works once (C48); `Process` after `Init` reads the first row of an empty vector (C49); only
  the first selected layer of each library counts (C51); the bitmap is not invariant under translation (C86);
  the unused fragment code leaves cells without a fragment (C95), falls short of the box (C96), and loses track of
  its list while erasing (C97).
* Converter: paths become points at the origin (C53) after arithmetic that can overflow (C54); cyclic references
  exhaust the stack (C56).
* MSK: failing reads can delete an element twice (C72), a second file gets no bounding box (C73), malformed box
  lines are accepted (C61), an empty file blocks the reader for ever (C82), backslashes do not separate
  directories (C81), every TITLE line leaks an object (C94). Layouts, libraries and elements can be copied, and the
  copies delete the same objects (C93).
* GDSII: the reader never reads (C66); were it to read: property values are dropped (C76), the data types of the
  layer list are in the wrong order (C78), library boxes are those of the last element (C79), refused records
  are not skipped (C80), the bitmap of such a layout is blank (C91); powers of 16 are lost when reals are
  written (C65).

## 7. Seeded bugs

`tools/mutate.py` edits one definition of the model in a scratch copy, rebuilds, and records in
`seeded/LOG.jsonl` which theorems fail.  Edits that no theorem noticed led to new or stronger theorems (for
example C87, C88, C89, `C43_null_pointer`) or are annotated as equivalent (the edited branch is unreachable).
