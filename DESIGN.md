# Formal model of VcDevel/Vc in Coq 8.16.1

## 1. Approach

Vc is a C++ template library; its code is (a) x86 intrinsics plus emulations of missing
instructions, (b) class templates that recurse over vectors of several sizes, (c) memory
helpers with index arithmetic.  Each of the three is modelled with total, computable Gallina
functions, one per C++ function, with a comment citing file and lines.

* **SimdArray / SimdMaskArray** - binary tree; a leaf is a native vector (list of elements), a
  node has the two members `data0`, `data1`.  The shape is computed by the code's own
  `left_size`/`right_size`.  The set of native widths is a parameter of every theorem (any set of
  powers of two containing 1), so Scalar, SSE and AVX builds are covered at once.  Reading past
  the end of an array is a separate outcome (`None`), never a default value.
* **SSE registers** - list of 16 bytes, each an integer in [0,256).  Lanes of w bytes are read
  little-endian.  Documented instruction semantics are definitions (trusted); Vc's code on top of
  them is modelled and proved.
* **Sorting networks** - polymorphic in the element type and the min/max operations; the 0-1
  principle is proved in Coq and used to lift an exhaustive check on booleans (a finite domain) to
  every total order.
* **Memory** - partial maps from addresses to values; out-of-bounds access is `None`.
* **Machine integers** - `Z` with explicit `mod 2^w`.
* **Floating point** - bit patterns, with the IEEE-754 meaning given by a small separate decoder
  (or Flocq's `binary32/binary64` where rounding matters).

Layout: `theories/Spec` (meaning of the properties, no model helpers), `theories/Model` (the code),
`theories/Proof` (lemmas), `theories/Props` (property theorems only, each closed by `exact`, with
`Print Assumptions` and satisfiability examples).

## 2. Per-property plan

| id | modelled | proof |
|----|----------|-------|
| C01 | NextPowerOfTwo recursion on N, left_size, right_size | induction on the distance to the next power of two |
| C02 | tree map / map2 / compare on tree | induction on tree |
| C03 | tree load/store/get/set over a memory | induction on tree |
| C04 | generate with offsets | induction on tree |
| C05 | SimdArray::shifted(int), SSE shifted, Scalar | refuted for unequal halves; `_partial` for sizes where it is right; all native vectors |
| C06 | both 2-argument overloads | induction on tree |
| C07 | rotated with all branches | case analysis on the branches for all N, amounts |
| C08 | reversed | induction |
| C09 | interleaveLow/High | induction |
| C10 | all SSE/AVX2 networks; SimdArray bitonic merge, padding | 0-1 principle + induction over tree |
| C11 | min/max as `a<b?a:b` on IEEE values | refutation with NaN; proof for the NaN free case; for SimdArrays the bitonic merge is proved on the values, and entries are traced to the argument |
| C12 | shift-and-add scheme; SimdArray carry | induction, associativity only |
| C13 | shuffle-reduce schemes; tree | algebra for associative+commutative ops |
| C14 | neutral-element fill; tree branching on empty halves | induction; refutation for float max; float sum(mask) and product(mask) where no operation rounds |
| C15 | assign/blend, WriteMaskedVector, iif | pointwise |
| C16 | SimdMaskArray and SSE mask functions | induction; bit-level lemmas |
| C17 | shifted, generate | induction |
| C18 | pack/unpack code paths | all register contents |
| C19 | mask_cast | all masks |
| C20 | BitmaskIterator | invariant over the loop |
| C21, C22 | emulations over byte registers | lane lemmas for all contents |
| C23 | division through float | exactness argument on integers |
| C24, C25 | the four strategies | equal to a masked loop |
| C26, C27 | index scaling, shuffle networks | all contents |
| C28 | both loops | induction on n |
| C29-C31 | padding arithmetic, loops | arithmetic, induction |
| C32 | aligned_malloc etc. with wrap-around | arithmetic; overflow refuted |
| C33 | casts | all register contents |
| C34 | half-word trick | rounding proof |
| C35 | 4x4 transposes of SSE floats and SimdArrays | all contents |
| C36 | trunc/floor/ceil/round fallbacks | refutation + range-restricted proof |
| C37-C40 | bit manipulation | bit lemmas |
| C41 | struct = list of member vectors; assign, extract, swap, shifted, where, load/store | induction over the members and the loops |
| C42 | iterators as positions, iterator objects with lifetimes, write-back loops | induction over the container; refutations |
| C43 | runs of equal values | induction |
| C44, C45 | immediates, unpack networks | all arguments / contents |
| C46 | floating-point conversions over bit patterns | decoder lemmas, all bit patterns |
| C47 | fma emulations | exactness lemmas, refutations |
| C48 | simdize as a function on type expressions | nested induction over types |
| C49 | minIndex, maxIndex: broadcast of the reduction, compare, firstOne; the float_v tournament | all contents; refuted for float_v |
| C50 | Detail::load of all type pairs and flags on a memory of bytes, SimdArray::load, MemoryAlignment | all types, N, addresses; refuted for three AVX loads |
| C51 | store with flags and masks on a memory of bytes, SimdArray::store | all types, N, masks; frame: no other byte changes, unselected elements need not be valid |
| C52-C54 | sin, cos, sincos as the code computes them: range reduction chosen by all entries, the polynomials and the reconstruction, on bit patterns with correctly rounded operations | symmetry carried through every operation; case analysis on infinities and NaN; refutations by evaluation |
| C55-C57 | log, exp, asin, atan, atan2 the same way | exponent extraction for powers of two, masked assignments for the special values |
| C58 | the simd_cast overloads of simdarray.h as three mutually recursive functions on sizes (arguments, offset, with_offset), over the native simd_casts of a build | induction over the depth of instantiation; instances for SSE and AVX from C33 and C46; refutation for unequal halves |
| C59 | converting constructors (Split::lo/hi, Segment) and conversion operators | induction over the tree of native vectors |
| C60 | Allocator::allocate/deallocate on memory, with ::operator new as a parameter that answers with any fresh, naturally aligned block; a state of blocks, objects and bytes | invariant over all histories of calls |
| C61 | makeContainer: the helper's loop over the initializer list | induction over the list |
| C62 | the feature bits, xgetbv and the switch of support.h over every answer of CPUID; builds as sets of compiler flags | case analysis over the flags, bit-level lemmas for the masks |
| C63 | family, model, line size from leaf 1 | bit-field lemmas |
| C64 | CpuId::interpret and the loops over leafs 2 and 4; the AMD leafs | induction over the list of descriptors and of leaf-4 answers |
| C65 | SubscriptOperation: scaling of indexes as ratio, pointers, inner indexes; the gathers and scatters it calls | invariant over the subscripts (address + scaled index is the offset of the C++ object layout), then C24, C25 |
| C66 | span: constructors, first/last/subspan with and without template arguments, the assertions, element access, iterators, comparison | induction over a chain of calls: contents and checks against the ideal sequence |
| C67 | the layout of SimdArray (alignas, data0, data1) and ElementReference | induction over the split tree; set of one entry |
| C68 | ReturnType of common/operators.h, result_vector_type of simdarray.h, overload resolution between them, the values | case analysis over the (finitely many) arithmetic types against the usual arithmetic conversions of the standard; modular arithmetic for all values |
| C69 | fromOperation over the tree of native vectors, the functions of scalar/math.h, sse/math.h and avx/math.h at the leaves | induction over the tree; at the leaves the theorems for the native vectors (C36, C38, C47) |
| C70 | division over the tree of native vectors, C++ division with undefined cases at Scalar and 32-bit SSE leaves, floating-point division elsewhere; then assign under the mask | per-entry theorems of the divisions that ask nothing of the other entries; induction over the tree; the sizes with a C++ division are characterised exactly |
| C71 | the stream operators as functions to texts, numbers in decimal, the loops with their unsigned counters | the shown text is proved equal to a format written independently; the numbers by a separate reader of decimal numbers: induction over the entries and the tree |
| C72 | iterators as addresses, loops with fuel, size_t arithmetic explicit | induction over the number of vectors left; the memory changed by a store is characterised cell by cell |
| C73 | subscript operation, gather arguments with their scale, interleaved access | places proved equal to member offset plus index times object size; a counterexample for small objects |
| C74 | iterators as pairs of vector and index, loops with fuel over the tree | induction over the entries left, with the theorems on element references (C67) |
| C75 | an array as cells of memory, the standard algorithms it calls written out | induction over the entries |
| C76 | a language of programs over the calls, run with the models of the three implementations and with a reference on lists | simulation: every call of an implementation refines the reference call (from the lemmas behind C02-C16, C21-C25), then induction over the fuel of the run |
| C77 | the functions of C52 (`Transcend.v`), compared with `sin` and `cos` of the real numbers of the standard library | a rounding error lemma for each operation; Taylor bounds of the standard library for the series; pi enclosed by Machin's formula; exactness of the argument reduction steps; case analysis on the quadrant |
| C78 | the functions of C56 (`Transcend.v`), compared with `exp` of the real numbers of the standard library | rounding error lemmas as in C77; the difference of the series and a Taylor polynomial is bounded by a checked subdivision of the interval (`PolyP.v`); ln 2 enclosed by rational numbers; the scaling by a power of two is exact |
| C79 | the functions of C55 (`Transcend.v`), compared with `ln` of the real numbers of the standard library | the reduction to an argument near 1 and an exponent is exact; rounding errors are bounded in proportion to powers of the reduced argument, so that the error vanishes with the logarithm; the difference of the series and a truncated series of ln in x / (2 + x) is bounded by a checked subdivision; ln 2 and ln 10 enclosed by rational numbers |
| C80 | the function atan of C57 (`Transcend.v`), compared with `atan` of the real numbers of the standard library | a Taylor polynomial with remainder for the real arc tangent; the addition formula for the reductions at tan(pi/8) or 0.66 and tan(3 pi/8); rounding errors in proportion to the argument; the difference of the rational function and the Taylor polynomial is bounded by a checked subdivision |
| C81 | the function atan2 of C57 (`Transcend.v`), compared with the angle t of the point: x = r cos t, y = r sin t (`AngleSpec.v`) | C80 for the arc tangent of the rounded quotient; the rounding of the quotient changes the arc tangent by a relative error; quotients above 2^70, infinite ones included, give an arc tangent near pi/2; the half plane x < 0 by one addition of pi |
| C82 | the function asin of C57 (`Transcend.v`), compared with `asin` of the real numbers of the standard library | the square root is correctly rounded; comparison of derivatives bounds the difference of the rational function and the arc sine, the polynomial inequality for the derivative being decided by a checked subdivision; the half angle formula for the upper part; exact subtractions near 1 |
| C83 | the programs of C76 with the floating-point leaves of the three implementations and a reference on lists of IEEE-754 bit patterns | simulation as for C76; for min() and max() induction over the tree: the result is always an entry with the least (greatest) value, which is unique without NaN and without both zeros; for sorted() the C11 theorem, whose result is unique then; for sum() induction over the tree: every partial sum is the exact sum of its entries, whatever the order, and negative zero only if all of them are; for partialSum() and sum(mask) the same, without negative zeros; for product() and product(mask) induction over the tree: every partial product of integers is exact |
| C84 | sqrt, rsqrt, reciprocal of the native vectors and of SimdArrays; the instructions rcpps and rsqrtps are arbitrary functions that satisfy the description in the processor manuals (a hypothesis; an instance shows that it can be met) | the integer square root with a mark for the remainder rounds like the real square root, because large floats are even; relative error of one and of two roundings; induction over the tree |
| C85 | operator new of AlignedBase, SimdArray and SimdMaskArray on top of aligned_malloc (C32) and the layout of C67; Detail::max | induction over the arguments of max; exact alignment of the placement by induction over the split, refuted for all composite arrays below the alignment limit |
| C86 | Vc_VERSION_CHECK, the version numbers, checkLibraryAbi | disjoint bits are a sum, positional comparison; refuted for larger numbers |

## 3. Trusted base

* **Coq 8.16.1's kernel** (and `coqchk`, run by the gate).  Every theorem in `theories/Props` is followed by
  `Print Assumptions`.  All except those of `AccuracyProps.v` (C77), `ExpAccProps.v` (C78), `LogAccProps.v` (C79), `AtanAccProps.v` (C80), `Atan2AccProps.v` (C81), `AsinAccProps.v` (C82) and `RootsProps.v` (C84) are *closed under the global context*: no axiom is
  used, neither of the standard library nor of our own.  These theorems speak of the real numbers of the standard
  library and list its four axioms `ClassicalDedekindReals.sig_not_dec`, `ClassicalDedekindReals.sig_forall_dec`,
  `FunctionalExtensionality.functional_extensionality_dep` and `Classical_Prop.classic`.  No functors, module types, plugins, `Admitted` or switched-off checks.
  (Libraries loaded in passing declare module-type fields such as `Coq.ssr.ssrunder.Under_rel.*`; no theorem uses them.)
* **The model.**  The statements are about the Gallina functions in `theories/Model`.  That these say the same as the
  C++ code is by reading: every definition cites file and lines.  Nothing in the model is extracted from the code.
* **Instruction semantics.**  The meaning of the x86 intrinsics follows Intel's documentation and is trusted:
  `Model/SseReg.v` (register moves, shuffles, unpacks, byte shifts), the first parts of `SseInt.v`, `SseArith.v`,
  `SseMask.v`, `SseConvert.v`, `SseMath.v` (integer and floating-point lanes, compares, conversions, blends),
  `AvxReg.v` (256-bit registers as two halves), the first parts of `AvxMask.v` (movemask, testz, testc, pext) and the
  shift-by-register words of `AvxArith.v`.
* **Undefined register parts.**  `_mm256_castsi128_si256` leaves the upper half undefined; the AVX model has it as a
  parameter `undef`.  Theorems about `shifted` and mask conversion hold for `undef = 0`, which is what the callers expect;
  for other values the `..._undefined..._refuted` theorems show that the result contains it.
* **IEEE-754 arithmetic.**  `Model/Fp.v` decodes bit patterns; `Model/FpArith.v` defines the correctly rounded
  operations on them.  `Spec/FloatSpec.v` and `Spec/RoundSpec.v` state independently what a correctly rounded value is;
  the agreement is proved (`Proof/FpP.v`, `Proof/FpArithP.v`).  The default rounding mode (to nearest even) is assumed and
  denormals are not flushed to zero.
* **C++ rules.**  Signed overflow, out-of-range shifts, out-of-bounds accesses, dangling references are `None`.  Template
  selection (SFINAE, overload resolution) is resolved by hand; which overload is modelled is cited.

### What is modelled

* `common/`: simdarray.h (including simd_cast), simdarrayhelper.h, simdmaskarray.h, writemaskedvector.h, where.h, iif.h, memory.h,
  memorybase.h, memoryfwd.h, malloc.h, interleavedmemory.h, gatherimplementation.h, scatterimplementation.h,
  bitscanintrinsics.h, maskentry/iterators (set bits), algorithms.h, simdize.h, set/math helpers, const tables as far as
  they are used by these.
* `sse/`: vector.h/.tcc, vectorhelper.h/.tcc, mask.h/.tcc, intrinsics.h (the emulations), shuffle.h, deinterleave.tcc,
  interleavedmemory.tcc, simd_cast.h, casts.h, math.h (rounding, frexp, ldexp, exponent, classification, fma), debug
  assertions of interleaved writes.
* `scalar/`: vector and mask as far as SimdArray reaches them.
* `avx/`: vector.h/.tcc (data movement, comparisons, arithmetic, shifts, reductions with and without mask, write masking,
  minIndex/maxIndex), mask.h/.tcc, the functions of detail.h, intrinsics.h and casts.h they use, shuffle.h, limits.h, the
  sorted() networks, casts.h and simd_cast.h (all overloads between AVX and SSE vectors and masks, with and without
  offset), the integer division, InterleaveImpl and deinterleave.tcc, math.h (rounding, frexp, ldexp, exponent,
  classification, copysign), fma without FMA instructions, Random(), gather and scatter (the generic code and the
  gather instructions of AVX2 builds on a memory of bytes), load (all conversions and flags) and store (flags, masks).  `avx_widths_of avx2 e` says which vector sizes an AVX or AVX2 build has (32-byte integer vectors
  only with AVX2).
* `src/trigonometric.cpp` (sin, cos, sincos, asin, atan, atan2), `common/logarithm.h`, `common/exponential.h` (float) and
  `common/math.h` (double exp): every floating-point operation, its order and its constants.  The build record says whether
  `>` and `>=` are true on NaN (C39).
* `Vc/Allocator` (allocate, deallocate, max_size; construct and destroy are plain C++), `common/makeContainer.h`.
* `Vc/cpuid.h`, `src/cpuid.cpp`, `Vc/support.h`, `src/support_x86.cpp` over the answers of CPUID and XGETBV, which are parameters.
  The meaning of the answers (feature bits, descriptors of leaf 2, fields of leaf 4 and of AMD's leafs) is written down in
  Spec/CpuSpec.v from the manuals.  Not modelled: whether the processor has a leaf at all.

* `common/subscript.h` (SubscriptOperation and the functions on index vectors), `common/gatherinterface.h` and
  `common/scatterinterface.h` as far as they use it.  Types are trees of numbers, classes and arrays with their layout
  (Spec/SubscriptSpec.v).  The deprecated functions with member pointers go through the same SubscriptOperation.

* `common/span.h`: every member function and the comparison operators; the standard iterators are positions.
* `common/elementreference.h`, and the object layout of SimdArray (`simdarray.h:506-511`, `1467-1473`, `utility.h:56-73`): C++
  rules for alignas and members.
* `common/operators.h`, `traits/is_implicit_cast_allowed.h` and `simdarray.h:1630-1750`: which types combine, the type of the
  result and values of integer operators.  Overload resolution between the two files is by reading of the standard (the
  overload of operators.h is more specialized).  long double and char (distinct from signed and unsigned char) are left out.
* `scalar/math.h`: abs, copysign, min, max, trunc, floor, ceil, round, reciprocal, isfinite, isinf, isnan, fma (`ScalarMath.v`). The
  functions of <cmath> and <algorithm> it calls are written from the standard. Functions of SimdArrays forwarded to the
  native vectors, `simdarray.h:1758-1859` (`ArrayMath.v`): the ones listed in C69.
* Division and remainder of SimdArrays and of the Scalar vector, compound assignment through WriteMaskedVector and where
  (`MaskedDiv.v`).
* Writing vectors, masks, SimdArrays, SimdMaskArrays and Memory objects to a stream (`Output.v`). Texts of floating-point
  numbers are those of the C++ standard library and are not modelled.
* Iterators and ranges of Memory objects (`MemoryIter.v`).
* `tie(...) = data[indexes][member]` (`Tie.v`).
* Iterators over the entries of vectors and masks (`EntryIter.v`).
* Vc::array (`VcArray.v`).
* Programs of SimdArray calls (`Program.v`, `Portable.v`): the calls of C02-C10, C12-C16, C21, C23 and, with the indexes in an array, C24 and C25 for short, unsigned short, int and unsigned int.
* Loads and stores of the Scalar build with all conversions but those to characters (`ScalarLoad.v`).
* No new code: C77 is about the functions of C52-C54 with round-to-nearest IEEE operations. Builds that link libmvec or that let the compiler contract `a * b + c` to fused operations are not modelled.
* No new code: C78 is about the functions of C56.
* No new code: C79 is about the functions of C55.
* No new code: C80 is about the function atan of C57.
* No new code: C81 is about the function atan2 of C57.
* No new code: C82 is about the function asin of C57.
* Floating-point programs (`PortableFp.v`): the calls of C76 for float and double, and sqrt, without shifts of the bits, bitwise operators and the masked reductions other than sum(mask) and product(mask); the arithmetic is that of `FpArith.v`.
* sqrt, rsqrt and reciprocal (`Roots.v`).  The approximations rcpps and rsqrtps are parameters.
* operator new of `Vc_FREE_STORE_OPERATORS_ALIGNED`, `alignedbase.h` (`HeapNew.v`); operator delete, placement new and the masks (which have alignments of their own) are not modelled.
* `version.h` and checkLibraryAbi (`Version.v`).

### What is not modelled

* The accuracy of sin, cos and sincos of doubles beyond 2^30 (wrong results are exhibited in C52) and of exp where the result
  is subnormal.  All other transcendental functions have proved error bounds: sin, cos, sincos (C77), exp (C78), log, log2, log10 (C79),
  atan (C80), atan2 (C81) and asin (C82).  The approximations rsqrtps and rcpps are known only by the bounds of the
  processor manuals, which are a hypothesis of C84.
* simd_cast of SimdMaskArrays: the functions are the same macros as for SimdArray (Model/ArrayCast.v is generic in the entries), but
  they are not linked to the native mask casts, because the overloads from Scalar masks exist only for 1, 2, 4 and 8
  arguments (sse/simd_cast.h:769-830) and others do not compile.
* MIC, NEON; of the AVX code: the AVX2 gathers that convert through a
  SimdArray, fma with FMA
  instructions (one instruction that is correctly rounded by definition); I/O (`operator<<`), `Vc/dump`, the build system.
* The quality of random numbers (only the range and the state update of Random()).
* Multi-threading: Vc has no shared state except the random state; `simd_for_each` is sequential.
* Compile-time properties (ABI selection, overload sets) except C01 (sizes) and C48 (simdize).

## 4. Findings

Statements that are false of the code are proved as `..._refuted` with a counterexample or a class of
counterexamples; MANIFEST.json says for each property what holds instead.  In short:

* SimdArray: `shifted` with unequal halves; `shifted(k, x)` for k <= -2N; `toInt` of masks with more than 32 entries;
  set-bit iteration for 32 entries; gather with a larger index array; `simd_cast` with an offset between sizes that are both
  not powers of two reads past the end; `simd_cast<ushort_v>` of Scalar floats from 32768 on is undefined.
* Native vectors: SSE `shifted(k, x)` wraps for 9..15; `sorted` with NaN and zeros of both signs; masked float
  min/max; masked `++` on -0.0; float `>=` on NaN; short -32768 / -1; `broadcast<1>` of double_v; `v[Permutation]`
  without AVX; `Mem::permute` of __m128d.
* Conversions and functions: SSE integer stores to other types write unconverted entries; int to short constructor saturates; SSE2 double to uint in mixed lanes; SSE2 trunc, floor,
  ceil, round for large values and signed zeros; fma rounds twice.
* Memory: padding for odd vector sizes, Memory(0), `==` compares padding, `!=` is not its negation; malloc size overflow;
  interleaved index overflow; deinterleave over-reads; scatter strategies differ for duplicate indexes; SetIndexZero
  gather/scatter touches element 0; `simd_for_each` forms a pointer before the buffer.
* simdize: `it <= it` is false; `it[i] = x` writes through a dangling reference; a reference follows its iterator; the
  `!=` loop overruns; homogeneous load/store assume the member order; bool after a class template does not compile.
* AVX: the undefined upper half in shifted(), mask shifted(), mask conversion and simd_cast; `Detail::blend16` ignores selectors 8..15;
  `>` and `>=` true on NaN with other compilers than GCC; float_v::minIndex() returns float bits; deinterleave over-reads,
  sign-extends unsigned short into uint_v and does nothing for three short vectors; AVX2 gathers into 16-bit entries
  read up to 3 bytes too many; double_v loads from 8- and 16-bit integers read four ints; float_v loads from unsigned
  int round twice; SimdArray<float, 4> loads from 16-byte aligned doubles fault; AVX2 gathers take unsigned indexes from 2^31 on as negative.
* Transcendental functions: sin and cos of doubles beyond 2^31 quarter turns; the result of an entry depends on the other entries;
  sin and sincos of floats disagree between 393382 and 527449; log(+infinity) and log(NaN) are finite; exp of doubles
  overflows at 708.4 and underflows at -708.4; exp of floats is wrong for denormal results; exp(NaN) is +infinity where `>` is
  true on NaN; asin of float and atan return +0 for -0.  By reading: builds for SSE2 only still call the SSE4.1 versions.
* `min(mask)` / `max(mask)` of float and double vectors start from `std::numeric_limits<V>`.  The specialisations for them are
  in `<Vc/limits>`, which `<Vc/Vc>` does not include and which does not cover SSE vectors in AVX builds; otherwise the start
  value is zero (`C14_float_masked_without_limits_refuted`).  The SSE theorems for masked float reductions
  (`C14_sse_float_*`) are about programs that include `<Vc/limits>`.
* Allocator, makeContainer: a request near max_size() wraps and returns storage that is too small; makeContainer of an empty list
  is undefined.
* CpuId and support.h: the extended family is added 16-fold (every AMD processor since family 0x10 has a wrong
  processorFamily()); descriptor 0x30 (instruction cache) is taken for a data cache, 0x1D and 0x24 are ignored;
  L1Associativity() may be that of the instruction cache; L3Associativity() on AMD is that of L2;
  extraInstructionsSupported() reports FMA, FMA4, XOP and F16C although the operating system does not save AVX registers;
  currentImplementationSupported() does not test F16C, nor FMA4 without XOP.  By reading: leaf 7 is asked without a look at
  the highest leaf; extraInstructionsSupported() does not call CpuId::init().
* Subscripts: an inner index into an array of objects whose size does not divide that of the indexed objects compiles and uses a
  truncated scale, so that wrong numbers are read and written (`C65_nested_refuted`); a distance (in entries) that int cannot
  represent wraps (`C65_overflow_refuted`).  By reading: a masked gather with std::vector indexes does not compile
  (`Scale * args.indexes`); AVX2 gathers of 16-bit entries with objects of 6 (or 3, 5, 7) bytes do not compile, because the
  scale of the instruction is 1, 2, 4 or 8; gather and scatter with a member that is a pointer do not compile.
* span: `subspan<Offset, Count>()` of a span of static extent checks only the offset, so that the result may end behind the
  sequence (`C66_static_subspan_refuted`); of a span of dynamic extent it accepts every negative count, not only -1
  (`C66_negative_subspan_refuted`).  By reading: the comparison operators call `equal`, `lexicographical_compare` and `distance`
  without std::, which is not found for pointers to fundamental types.
* Mixed operators: for a SimdArray<short, N> a + 1 has entries of type int, (a + a) + 1 of type short (`C68_fixed_refuted`);
  ushort_v(65535) == -1 and short_v(0) == 65536 are true (`C68_compares_refuted`).
* Scalar vectors: round(x) adds 0.5 and takes the floor, so 0.49999997f becomes 1 and every odd integer between 2^23 and
  2^24 (2^52 and 2^53) in absolute value is increased by one (`C36_scalar_round_refuted`); the sign of zero is lost
  (`C36_scalar_round_zero_refuted`).
* SimdArrays of a size that is not a multiple of the native width use the Scalar vector for the rest: round, min, max (NaN
  operands) and fma of equal entries give different results at different positions (`C69_round_refuted`,
  `C69_minmax_refuted`, `C69_fma_refuted`).
* `where(y != 0) | x /= y` is undefined (it traps) for int and unsigned int in SSE and AVX builds, in Scalar builds with
  SimdArrays and `x(mask) /= y`, and for every SimdArray whose size is not a multiple of 8: all quotients are computed
  before the mask is applied (`C70_refuted`, `C70_scalar_refuted`).
* A SimdArray of signed char or unsigned char is written as characters, not numbers; the native vectors of these types are
  written as numbers (`C71_array_numbers_refuted`).
* Writing a one-dimensional Memory of 2^32 vectors or more never ends: the loop counter is an `unsigned int`
  (`C71_memory_refuted`).
* Writing a Memory also shows its padding (`C71_memory_entries_refuted`).
* The documentation of operator<< for Memory shows spaces between the vectors; none are written (`C71_memory_doc_refuted`).
* `Vc::tie(x, y) = data[indexes][&S::x]` with objects of at most 8 bytes, such as `struct { float x, y; }`, reads the
  numbers of other objects: the scale of the gather arguments is not applied to the indexes (`C73_tie_small_refuted`).
* The subscript of an iterator over the entries of a vector ignores where the iterator points: `it[n]` is entry n of the
  vector, not `*(it + n)` (`C74_subscript_refuted`).
* Iterators over the entries of different vectors are neither equal nor unequal: `==` and `!=` are both false
  (`C74_different_vectors_refuted`).
* A program that divides short(-32768) by short(-1) gives -32768 in the Scalar build and 32767 in the SSE build
  (`C76_short_division_refuted`).
* sum() of SimdArray<float, 4> depends on the build: for 2^24, 1, 1, 0 the Scalar build gives 2^24, the SSE build 2^24 + 2
  (`C83_sum_refuted`).
* partialSum() of a float array that starts with -0.0 starts with -0.0 in the Scalar build and with 0.0 in the SSE build, which adds
  the 0.0 that shifted() moves in (`C12_negative_zero_refuted`).
* any_of(x >= x) with x = NaN is false in the Scalar build and true in the SSE build (`C83_nan_refuted`, see C39).
* reciprocal gives different results for equal entries of one SimdArray: in the SSE build with SimdArray<float, 5>, entries 0-3 use rcpps, which takes 2^-127 as zero and returns infinity, entry 4 is divided and gives 2^127 (`C84_position_refuted`).
* new SimdArray<T, N> of an array that is not one native vector asks for alignof(storage_type0), the alignment of its left half, which is half of alignof(SimdArray<T, N>) unless the compiler's alignment limit applies to both: new SimdArray<float, 8> with SSE need not be 32-byte aligned (`C85_array_new_refuted`).
* Vc_VERSION_CHECK gives 1.1.128 the number of 1.1.0 (`C86_order_refuted`).
* By reading only (not expressible in the model): `MemoryBase::operator=` lacks a return statement; `transpose()` keeps
  references to by-value parameters; `simdize` Interface::load/store cannot compile; AVX `Mem::permute<8>` cannot compile;
  `std::swap` of two `Vc::array`s takes constant references and cannot compile.
